# Formal model of spandsp in Rocq/Coq - design

## Layout

`rocq/theories/`
* `Base.v` - C integer helpers (explicit wrap-around), the outcome type `res` (`Ok x | UB`)
  in which undefined behaviour (out-of-bounds access, bad shift) is a *distinct result*, bounds-checked arrays.
* `<Part>_model.v` - executable Gallina transcription of the C code, function by function, each definition citing
  file and lines in /repo. No proofs.
* `<Part>_spec.v` - (where needed) a small independent specification written without the model's helpers.
* `<Part>_proofs.v` - lemmas.
* `<Part>_props.v` - only the property theorems (closed by `exact`), their non-vacuity `Example`s and
  `Print Assumptions`.

## Modelling rules

* C `int`/`uintN_t` values are `Z`; every wrap that the C type performs and that can be reached is written
  explicitly (`u8 x = x mod 256` ...). Signed overflow, out-of-range shifts, out-of-bounds accesses are `UB` where
  the property is about safety; elsewhere the precondition which excludes them is stated in the theorem.
* Callbacks are modelled as output lists of events (the order of callback invocations is the order of the list).
* Pointers to caller buffers are lists. Memory allocation never fails in the model.

## Property plan (initial)

| id | what is modelled | how it is proved |
|----|------------------|------------------|
| C01-C05 | crc.c, both tables literally | table = 8 bit-serial steps by computation over 256 entries lifted to all; linearity over xor of the bit-serial register; append/check by residue; bursts by injectivity of the shift register |
| C06-C07 | bit_operations.[ch] | bit-by-bit (`Z.testbit`) equality, SWAR sums by digit decomposition |
| C08-C10 | g711.[ch] | finite sweeps over the full 256 / 65536 domains lifted with forallb_forall; buffers by induction |
| C11 | bitstream.c | refinement to a list of bits, induction over fields |
| C12-C13 | async.c | simulation: transmitter emits frame bits, receiver invariant per bit position |
| C14-C17 | hdlc.c | transmitter refines "stuffed bits + flags" stream; receiver inverts it; induction over frames |
| C18-C20 | queue.c | refinement to a list; interleaving semantics for C20 with invariant over in-flight copies |
| C21 | schedule.c | invariant over event history |
| C22-C24 | v42bis.c | encoder/decoder bisimulation over dictionaries; safety invariant |
| C25-C28 | ima_adpcm.c, oki_adpcm.c | step lemma + induction; prefix-code lemma for VDVI |
| C29 | playout.c | list refinement |
| C30-C32 | t38_core.c | encode/decode round trip by induction over fields; bounds by checked reads |
| C33 | t4_t6_encode.c, t4_t6_decode.c | run-length level, then code tables, then bit level |
| C34 | t81_t82_arith_coding.c | interval invariant linking encoder code register and decoder register |
| C35 | scramblers in v17/v29/v27ter/v22bis | shift register induction |
| C36 | t38_non_ecm_buffer.c | ring buffer refinement |
| C58-C62 | t85_encode.c, t85_decode.c | decisions of a stripe as a list shared by both sides; C34 for the octets; marker parsing by cases on the split |
| C63-C68 | adsi.c | transmitter emits the bits of a message, receiver invariant per octet; field walks by induction |
| C69-C76 | v42.c | each side's sequence numbers unwrapped to ghost counters; invariant over both channels; detection by a receiver invariant over the bits heard |
| C77-C85 | g726.c | range invariant of the predictor state; encoder and decoder share one update; finite sweeps over the reconstruction tables |
| C86-C94 | sprt.c | one end: ring buffers and timer queue against ghost counters; two ends: an invariant over both ends and all packets in the network |
| C95-C104 | g722.c | one band and one code at a time with ranges for all sums; bits of the packed octets as one list; encoder and decoder steps share the update of a band |
| C105-C113 | v8.c | the receiver as a function of the bits heard; the line between two ends as a list of bits sent with what each end has read, and an invariant over it; timers by induction over calls |
| C114-C123 | gsm0610_*.c | packings as lists of bits; ranges of each filter by induction over samples; encoder and decoder share one update of the residual; searches as maxima over lists |
| C124-C133 | ademco_contactid.c | digits by cases, sums modulo 15; the receiver by groups of 16; the sender as a machine over calls, with invariants, and measures for giving up |
| C134-C147 | bert.c | the shift register as a recurrence on bits; the period by running through it in the kernel; the receiver in phases from any register; the rate by cumulative counts |

Properties the code turns out to violate are recorded with a `..._refuted` theorem (a concrete witness computed on the
model) together with the strongest `..._partial` statement that does hold.

## Trusted base

* The Coq 8.16.1 kernel, including `vm_compute` (used for finite sweeps, such as all 256 octets or all 65536
  samples, and for examples).
* The faithfulness of the transcription of the cited C lines, and the simplifications listed below.
* Axioms: none are added. `Print Assumptions` after every theorem of every `*_props.v` file prints
  `Closed under the global context`. The library files loaded by `ZifyBool`/`Lia` bring in `Coq.ssr.ssrunder`,
  whose module-type fields `Coq.ssr.ssrunder.Under_rel.*` (7 of them) a whole-library check such as `coqchk` lists as
  axioms of the standard library; no theorem depends on them.

## What is modelled, and what is not

| files | modelled | left out or simplified |
|-------|----------|------------------------|
| `Crc_*` | crc.c, all of it, tables literally | nothing |
| `BitOps_*` | bit_operations.[ch], portable C branches | inline assembler branches (bsr, bsf, clz) other than their documented result |
| `G711_*` | g711.[ch] | the zero-trap build option (off in the source) |
| `Bitstream_*` | bitstream.c | allocation |
| `Async_*` | async.c | put_byte/get_byte callbacks are lists |
| `Hdlc_*` | hdlc.c | counters unbounded; the underflow handler is any list of scripts of calls |
| `Queue_*` | queue.c, also with two threads | sequentially consistent memory, octet by octet memcpy |
| `Sched_*` | schedule.c | callbacks do not call span_schedule_update; logging |
| `Scram_*` | scramblers, descramblers and bit/symbol maps of v17, v29, v27ter, v22bis, v34 | modulation, equalizers, slicers |
| `Adpcm_*` | ima_adpcm.c, oki_adpcm.c | 24 kbit/s Oki resampling (floating point); bit counters unbounded |
| `Playout_*` | playout.c | statistics unbounded; timestamp overflow is a ghost flag |
| `T38_*` | t38_core.c | logging, names; handlers do not call back; missing packet count unbounded |
| `V42bis_*` | v42bis.c | logging, allocation; dictionaries of up to 4096 codewords |
| `Arith_*` | t81_t82_arith_coding.c | the count of held back 0xFF octets is unbounded |
| `T4_*` | t4_t6_encode.c, t4_t6_decode.c and their tables | logging, monitoring counters, allocation failure; row write handler always accepts; ints unbounded |
| `NonEcm_*` | t38_non_ecm_buffer.c | logging; counters unbounded |
| `T85_*` | t85_encode.c, t85_decode.c (with t85_analyse_header) over `Arith_*` | logging, allocation failure, the compressed size statistic, several bit planes; row read handlers return whole rows, row write and comment handlers always accept |
| `Adsi_*` | adsi.c | the FSK, DTMF and tone modems and the sample level, so also the DTMF message timeout; logging; the DTMF generator takes all digits; the asynchronous framing of TDD characters |
| `V42_*` | v42.c: LAP.M with its queues, timers and XID frames, detection of a V.42 peer | logging, allocation; the HDLC layer (modelled apart in `Hdlc_*`) hands over whole frames; bit times pass one by one; N.400 retransmissions and the line rate as initialised |
| `G726_*` | g726.c | allocation; the four bit rates' encoder and decoder functions are one function each with the tables as parameters; ints unbounded (ranges proved where used) |
| `Sprt_*` | sprt.c | logging, allocation; the application does not call SPRT from within its callbacks; settings are changed before use only; one reading of the clock per call; the memory of a slot is one abstract cell; times are unbounded |
| `G722_*` | g722.c, saturated.h | allocation; `itu_test_mode` is a setting of the configuration; left shifts of negative numbers are multiplications; sums of products are checked for overflow of 32 bits; the context of the encoder and of the decoder is one record |
| `V8_*` | v8.c | the V.21 modems and tone detectors: bits and tones are arguments; the silences before the FSK; logging; allocation; the line of C108 loses no bits |
| `Gsm_*` | gsm0610_encode.c, gsm0610_decode.c, gsm0610_preprocess.c, gsm0610_lpc.c, gsm0610_short_term.c, gsm0610_long_term.c, gsm0610_rpe.c | the MMX/SSE variants; allocation; the contexts of C115 and C117 are those that satisfy dec_ok and enc_ok |
| `Ademco_*` | ademco_contactid.c | the Goertzel filters, taken as any decisions block by block; the DTMF generator and detector, taken as digits and lengths; the logs and the texts of events |
| `Bert_*` | bert.c | bert_event_to_str; a reporter is always set; decade_bad is not bounded; 1 << 31 is the highest bit |

Nothing else of the repository (modulation and demodulation, T.30, TIFF handling, the gateway, tone detection, the
speech codecs other than those above) is modelled.

## Findings

The `_refuted` theorems are places where the code does not do what the property asks; `MANIFEST.json` describes each.
They are stated on the model, with the witness input in the theorem, and stand beside the strongest `_partial`
statement that does hold.

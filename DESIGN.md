# Formal model of rust-av in Rocq (Coq 8.16.1)

Target: `/repo`, the rust-av workspace (`bitstream`, `data`, `codec`, `format`, `src/io`). The
Rust code is read as text and transcribed function by function into total Gallina functions.
Nothing in `/repo` is built, executed or changed.

* `properties.jsonl`: the properties in English (written by `tools/props.py`).
* `rocq/theories`: model, specifications, proofs, property theorems.
* `MANIFEST.json`: property -> theorems (written by `tools/manifest.py`, which also refreshes the
  table at the end of this file).
* `seeded/`: wrong programs (`mutants.py`), what each of them broke (`LOG.jsonl`);
  `tools/mutate.py` runs them in a scratch copy.

## Layout of `rocq/theories`

| file | contents |
|---|---|
| `Base.v` | outcome monad (`Ret`, `Panic`, `UB`), checked machine arithmetic, slices |
| `*Model.v` | transcription of the code; every definition cites file and lines |
| `*Spec.v` | small specifications that do not use the model's functions (bit strings, stream positions, lists of calls, sizes) |
| `*Proofs*.v`, `*Main.v` | lemmas; the proof of each property theorem |
| `*Examples.v` | concrete instances used to show that hypotheses can be met |
| `*Props.v` | the property theorems only: statement, `exact`, `Print Assumptions`, and beside each a concrete `Example` meeting its hypotheses |

## Modelling conventions

* Unsigned machine words are `N`, signed ones `Z`, lengths and indices `nat` or `N`; reductions
  modulo 2^8/2^16/2^32/2^64 are written out where Rust truncates (`as` casts, `<<`).
* Integer overflow, failed `assert!`, slice indexing out of range, `unwrap` of nothing and
  over-wide shifts are `Panic` (overflow checks on, as in the debug profile). A theorem showing
  that no `Panic` happens also holds without overflow checks, since the profiles differ only
  where an overflow happens.
* `UB` is an access outside an allocation through a raw pointer. Rows copied by
  `copy_nonoverlapping` are checked as a whole.
* `&mut self` becomes a returned new state; `Arc<T>` is its contents; `'static` descriptors are
  values.
* `HashMap` iteration order is an arbitrary permutation chosen by an oracle for each map.
* `Read`, `Write`, `Seek`, `BufRead` implementations, demuxers, muxers, probes, decoders and
  encoders are arbitrary functions on an arbitrary state type. Where a property needs a
  well-behaved source, the source is a byte list with a position and a script of choices (how
  many bytes each call transfers, errors, interruptions), and the theorem quantifies over all
  scripts.
* Loops that may not terminate take a number of rounds; `None` means "still running". Results are
  stated for every number of rounds that yields one, divergence for every number of rounds.

## Trusted base

1. The Coq 8.16.1 kernel (with `vm_compute` for examples and witnesses).
2. Axioms: none. `Print Assumptions` stands under each property theorem and prints "Closed under
   the global context" for every one of them. A whole-library check (`coqchk -o`) also lists seven
   axioms of `Coq.ssr.ssrunder` (`Under_rel` and friends): that module of the standard library is
   loaded by `Require Import Lia/ZArith` but no theorem here depends on it.
3. The faithfulness of the transcription. As a check of it, `RepoTests.v` and `RepoTestsBit.v`
   evaluate the repository's own unit tests on the models; all of them come out as asserted,
   except `test_frame_copy_from_slice`, which reads past its buffers (C70). The transcription
   includes these assumptions about code outside `/repo`:
   * std: `from_le_bytes`/`to_be_bytes`..., `checked_shl`, `overflowing_sub`, `Vec`, slices,
     `HashMap` (as a finite map with arbitrary iteration order), `read_exact`, `write_all`,
     `read_to_end`, `read_until`, the methods of `InheritSpec`, I/O traits as documented (a reader returns at most the length of the
     slice, except in C168; `read_exact` and `write_all` retry `Interrupted`), `Seek::stream_position` =
     `seek(Current(0))`.
   * A `Vec` allocation above `isize::MAX` bytes panics. Running out of memory aborts; it is `Panic` where it is modelled,
     which is for codebooks (C158, C159), packets, `AccReader` and default frames (C160-C162). Elsewhere memory is unlimited.
   * `num_derive::{FromPrimitive, ToPrimitive}` map a variant to its declared discriminant and back.
   * `byte_slice_cast`: a cast succeeds exactly if the address is aligned and the byte length is a
     multiple of the element size.
   * `num_rational::Rational64` is a pair of numbers copied around, never computed with.
   * `bytes::Bytes`/`Arc`/`Box<dyn Any>` are transparent or opaque tokens.
4. Counters of the bit reader and of `AccReader` are `nat` in the models that most theorems speak about.
   That this changes nothing is proved, not assumed: C95 and C96 show equality with models on checked
   64-bit words while the buffer of the bit reader and the bits skipped are fewer than 2^64 bits together, and
   while source and buffer of `AccReader` are each shorter than 2^63 bytes. The same is proved for the
   byte count of `Writer` (C107, exact), the one of `get_buffer` (C108) and `AccReader` inside the demuxing `Context` (C119, exact).
5. Arithmetic is that of a build with overflow checks, so an overflow is a panic. What a build without them does is
   modelled for sizes, frames and copies (`ReleaseModel`), for the bit reader (`ReleaseBitModel`), for codebooks
   (`ReleaseCbModel`), for `AccReader` (`ReleaseAccModel`) and for the remaining operators, those of texts, total depths, `Writer`
   and `get_buffer` (`ReleaseMiscModel`): C97, C109, C123, C112 and C126-C128 say that the two agree wherever the checked one does not panic.
   That is all arithmetic outside tests.
6. `usize` has 64 bits in the models above. rust-av is tested on wasm32 too (`.github/workflows/rust-av.yml`), where it has
   32; `MachineModel` has the operators for any width, with and without overflow checks, and the models built on it say what
   then changes: `AccReader` (C129-C132, C150, C151), `Writer` and `get_buffer` (C133, C134),
   sizes, default frames and copies (C135-C137), the bit reader and codeword reads (C138-C140), construction of
   codebooks (C158, C159), the demuxing `Context` (C144-C147). C148 says that overflow checks change no result
   (for construction that follows from C158 and C123). That is all arithmetic on `usize` outside tests.

## What is modelled, what is not

| code | modelled | left out |
|---|---|---|
| `bitstream/src/byteread.rs`, `bytewrite.rs` | everything | |
| `bitstream/src/bitread.rs` | everything public and internal | `Debug` |
| `bitstream/src/codebook.rs` | construction, look-up tables, `read_cb`, `reverse_bits`, `CodebookMode`, the description readers, `Display` of `CodebookError` | |
| `format/src/buffer/accreader.rs`, `buffer/mod.rs` | everything | `log::trace!` |
| `format/src/demuxer.rs` | `Context`, `Probe`, `probe` | |
| `format/src/muxer.rs` | `Writer`, `Context`, registry `Lookup` | |
| `format/src/common.rs`, `stream.rs`, `error.rs` | types, `add_stream`, stream constructors, error type with its text, source and conversion | |
| `codec/src/{common,decoder,encoder,error}.rs` | registries, contexts, error texts | |
| `data/src/packet.rs`, `timeinfo.rs` | everything | |
| `data/src/audiosample.rs`, `pixel.rs` | everything incl. `Display` | doc-only constants |
| `data/src/frame.rs` | infos, buffers, frames, copies, typed views, accessors, `Display`; copies and typed views also for any other implementation of `FrameBuffer` (`AnyFrameModel`, for any width of `usize` `MachineAnyModel`) | |
| `data/src/params.rs`, `value.rs` | types, conversions into option values | `Debug` |
| `src/io/byteread.rs` | everything | |
| `src/{entropy,filter,resample,scale,parser}` | empty in the repository | |
| unit tests | run on the models in `RepoTests.v`, `RepoTestsBit.v` | `value_str` (only prints `Debug`), `test_new` (commented out) |
| benches | the programs, in `BenchModel.v` | criterion, timing |

Concurrency: the code has none (no threads, no locks, no atomics of its own), so there are no
schedules to quantify over; interleavings appear as arbitrary histories of calls and as arbitrary
behaviour of readers and writers.

## How the properties are proved

* **C01-C04** (byte access): getters and putters as indexed loads and stores after the leading
  `assert!`. Specification by bit placement (`N.testbit`), two's complement by `Z` arithmetic.
* **C05-C14, C78, C79** (bit reader): a reader is (buffer, index, cache word, left). Two simulations:
  `inv` (the cache holds the `left` bits after the position) gives the behaviour away from the
  end of the buffer; `rep` in `BitQueueProofs` relates *every* reachable state, including stale
  ones, to a queue of bits (`BitQueueSpec`), so C78 needs no side condition on positions. The exact
  forms of C13 and C14 are consequences.
* **C15-C22, C67, C80, C81, C85, C86** (codebooks): specification: codewords as bit strings, prefix-freeness, decoding by
  prefix. Invariant "the table at this offset serves this set of codewords", with a frame property
  for the recursive construction of escape tables, for every iteration order of the maps. C85 states what a
  codeword read does in *every* state as decoding of a set of codewords from the bit queue of C78 (`CbQueueSpec`);
  C86 and the exact forms of C21 and C22 follow from it or from the table invariant.
* **C23-C30** (AccReader): refinement of a machine (content, position); a history is a list of calls
  against an arbitrary script of the inner reader. C100 drops all conditions on the calls: the machine then has the
  reported position as a third number.
* **C31-C40** (demuxer context): loops over arbitrary demuxers; for the positive statements an
  incremental parser over the byte list defines what events are expected. **C88, C89** and the exact
  forms of C36 and C38 analyse one round of the loop for sources that may fail at any call, and sum over the rounds.
  The bounds on the rounds are reached by a parser that takes its input byte by byte (`RoundsSpec`).
* **C95, C96, C107, C108** (machine words): the same functions once more on checked 64-bit words, and a simulation. For
  `AccReader` the invariant is that beyond the end of the source the window lies at the start of the buffer, so
  `index + end` cannot overflow even at the last 64-bit position.
* **C41-C47** (streams, muxer, registries): list specifications.
* **C87** (muxing, then demuxing): a format is an appending muxer and a parser related by `format_pair` (`PipeSpec`); the
  output of C45 is fed to the events of C31. The example format reads and writes its numbers with the functions of C01.
* **C97-C99** (sizes): the wrapping functions agree with the checked ones where those return; the checked ones return
  exactly under the bounds written down in `FrameSizeSpec`.
* **C109-C111** (bit reader without overflow checks): the same functions on wrapping words agree with those of C95 where
  they return; with the queue of C78 only `available` can panic, so only its wrapped value has to be computed.
* **C123-C125** (codebooks without overflow checks): each step of the construction agrees with the checked one where that
  returns; the proof of C85 once more over the wrapping reader gives the behaviour behind the end.
* **C126-C128** (texts and counters without overflow checks): the texts are those of C115 for depth and shift modulo 32; the
  position of `Writer` and the depths are the unbounded ones reduced.
* **C112-C114** (`AccReader` without overflow checks): agreement as before; for the absence of panics the invariant is
  `pos <= end <= buf.len()` and nothing else, since a wrapped bound at line 171 of accreader.rs is below `index`.
* **C129-C132** (`AccReader` for any width of `usize`): the functions of C96 and C112 with the machine as a parameter. The
  simulation is the one of C96; while only reading the position is never looked at, so it may wrap.
* **C150, C151** (panics of `AccReader` for any width of `usize`): each call of a checked machine is computed from the one
  of the unchecked machine and the test whether a counter reaches 2^bits; the invariant is that of C113.
* **C133, C134** (`Writer` and `get_buffer` for any width of `usize`): the position is the unbounded one modulo 2^bits; a
  checked addition overflows exactly if the quotient by 2^bits changes.
* **C135-C137** (frames for any width of `usize`): agreement as in C97, between any two machines of which the narrower is
  checked; the mask of `align` is cut off differently, which the smaller operand hides. The size conditions are those of C99
  with 2^bits for 2^64.
* **C138-C140** (bit reader for any width of `usize`): one model, `MachineBitModel`, of the reader and of `read_cb` for any
  width, with and without overflow checks.  The checked reader is compared with the one on unlimited counters as in C95,
  the unchecked one with the one on 64 bits: as long as indices fit every operation gives the same, shift amounts because
  64 divides every modulus from there on, and counts because reduction modulo 2^64 and then modulo the width is reduction
  modulo the width.
* **C158, C159** (codebooks for any width of `usize`): one model, `MachineCbModel`, with the operators and the allocator as
  parameters. With unlimited operators it is `CodebookModel` or, without overflow checks, `ReleaseCbModel`. A machine
  differs only where an index plus an offset does not fit; offsets are below a quarter of the address space, since the
  table was allocated, and below the first level what is left of a codeword has 31 bits at most. A refused allocation
  is carried on as "the codebook, if there is one, is larger". Then every step of a legal history stays within the buffer.
* **C160-C162** (no memory): `MachineAllocModel` asks an allocator, a predicate on sizes, wherever the code allocates for data.
  No call but `grow` makes the buffer of a reader longer, so what a history needs is its capacity and its growth. C160 is
  false as stated: `get_packet` allocates the packet before it reads, so a length taken from a malformed file decides
  whether the program survives.
* **C144-C147** (demuxing for any width of `usize`): the loops of C119-C122, which leave the reader open, over the reader of
  C129-C132; the relation of a call to the one on numbers is that of C119 with 2^(bits-1) for 2^63.
* **C148** (overflow checks): one relation on outcomes, "whatever the left one returns the right one returns", which
  holds for the operators of `MachineModel` and goes through sequencing and case distinctions.
* **C152-C155** (descriptions that are not prefix-free): every table position gets a label, the longest remainder that
  can be read there, and every table entry is blank, a symbol index in range, or an escape to a block in range whose
  labels are at least 10 lower. Filling, allocating and recursing keep this whatever overwrites what, so chains of
  escapes have at most 26 links and end in the table. For short codewords the table is computed exactly: the
  entry for some bits is that of the last codeword they begin with.
* **C163-C165** (any description): the tables are a forest. Every table entry is blank, a symbol index in range, or an escape
  to a table, tables do not overlap, and no two escapes lead to the same table, because an escape is written only with the
  table it leads to. So a read never comes to a table twice, whatever was written where. The number of rounds of
  `read_cb` is a parameter there (`read_in`). For C165 the labels of C153 also bound the length of the codewords;
  without fitting codewords the tables of the forest, each of which has more entries than it takes bits, do.
* **C166** (tables of any size): an entry keeps the low 24 bits of a symbol index or offset, which are no larger than the
  whole, so lookups stay in the table and the symbols. Each further round moves the reader until its cache is empty and
  fewer than eight bytes remain. There `skip_bits` does nothing while `available` still counts those bytes. The reader then
  stays as it is, so the rounds go through finitely many places of the table and end soon or never.
* **C156, C157** (`get_mut` of `AccReader`): between two seeks the reader is one over the bytes to come, the buffered ones
  followed by those of the source, which is a source in the sense of C100 for a reader that cannot seek; so C100 applies.
* **C167** (`AccReader` over `AccReader`): an `AccReader` satisfies what C100 asks of its source (`source_ok`), so C100
  applies again, by induction on the number of readers. A panic of an inner reader would be absorbing (`acc_io`).
* **C168** (counts that are too large): nothing is assumed of the inner reader but that slices keep their length. What a
  call asks the inner reader is written down from the fields of the state (`overlong_call`).
* **C169** (any `FrameBuffer`): each method is a function from a state to a state and an answer, so methods that take `&self`
  may change something inside. Implementations that keep to the documentation are compared with the default one plane
  by plane (`lawful`); of the others only safety is said, with an invariant of their states.
* **C170** (further inherited methods): the standard library's text is transcribed in `InheritSpec` and reduced to the
  reads, fills and seeks of C100; `bytes` is `read_to_end` with chunks of one byte, `skip_until` is `read_until`.
* **C171** (clashes within ten bits): the invariant of the tables (`serves`) says of an entry that it holds the last short
  word that matches (`lastin`), and clashes stay at their level when ten bits are taken off (`lpf_sub`). C85 and C19 are
  the special case without clashes.
* **C172** (any clashes): the invariant also says which kind of entry wins (`decides`): in the main table a short word
  replaces an escape but not the other way round, in the tables below escapes replace short words. A bucket gets its
  table when its first word finds the entry empty, which the condition `unblocked` says of all buckets. C171 is a special case.
* **C173** (any codewords at all): the second pass is followed with the first word that matches a string of ten bits
  (`own`): if it is short, the bucket of the longer ones has no table and offset 0. The third pass then builds tables in
  regions of their own, and those at offset 0 over the beginning of the main table, the last one written counts
  (`build_mixed`, `laid`). An entry there stands for what the search in `CbFullSpec` finds (`ent`), and after the first
  ten bits reads go on as in C172. For each order of the blocked strings there is an order of the hash map (`ord_to`).
* **C174** (the same without overflow checks): the table of C173 (`full_table`) is read by the loop of `ReleaseCbModel`;
  what `CbFullRelSpec` adds to C173 is the test `renough` whether there are enough bits, which wraps around and never panics.
* **C175** (the same for any width of `usize`): C158 and C140 relate machines to the models of C173 and C174.
* **C176** (any `FrameBuffer` for any width of `usize`): the proofs of C169 with the sizes of components computed as in C135.
* **C149** (size of tables): the strings at which codewords are cut, counted without repetition; those below one
  10-bit string are those of the codewords that begin with it. For the refutation the model is evaluated on a copy
  whose table is a map (`CodebookSparse`), proved to agree with the model.
* **C104-C106** (inherited methods): the loops of the standard library around `read` and `fill_buf` (`StdReadSpec`), with the
  chunk sizes of `read_to_end` arbitrary; "without the source" is independence of the source.
* **C177, C178, C180** (calls of the source): the inner reader wrapped in one that notes the calls it gets (`traced`); the run is the
  same and the note is the one the specification gives for the capacity, the bytes waiting and the call. C178 counts them for
  reads of one byte, C180 (false of the code) for `fill_buf`.
* **C181** (calls of the source while demuxing): the same for `read_event` with any parser that moves within the bytes it has seen
  (`within`); `counting` is the parser that also counts its unmet requests. The bound of C181_whole comes from the growth of the
  buffer: each read after a request finds room for more than the capacity. C181_headers is about
  `read_headers` with any parser, `header_counting` counting its calls.
* **C182** (buffer with a fast source): `requests_at_most` and `block_parser` of C89, sources as in C178; the bound is arithmetic on
  the two numbers "size" and "bytes taken from the source".
* **C183** (accessors): the representation invariant of C23 says what the buffer holds; for the muxing context the invariant is that
  the counter of the writer and the bytes on the tape of the output (`keeps` of C45) differ by a constant.
* **C184** (calls of `Writer`): the same calls made on the output itself (`direct_run`), and an output that notes its calls
  (`noting`); both by induction over the calls. C44 and C102 speak of outputs that are files, where a call too many need not show.
* **C185** (muxing `Context`): a method of a muxer is a tree of calls and questions to its writer (`method`), which
  can be run on `Writer` and on the bare output; the position is then counted from the noted calls of C184. C45 is
  about muxers that only append.
* **C186** (demuxers that read): a method of a demuxer is a tree of calls to its reader (`reading`), run on `AccReader` and on the
  list of bytes. C31 is about demuxers that only look at the buffered bytes. Backward relative seeks are left out (C26).
* **C187** (coded messages in a file): the composition of C17 and C87; `decode_event` is the program a client would write.
* **C188** (complete codes): completeness is stated by the lengths alone (Kraft sum); that a complete prefix code leaves no
  string undecoded is proved here, not assumed.
* **C189** (long codewords without checks): the words under which codes are found are stated in `ReleaseLongSpec` by shifting the
  code; the history theorem has the form of C125. `WideCbModel` is no model of code but an auxiliary construction with
  unbounded codes, used in the proof only. Codes that are too large and not the first long ones are left open (they panic
  or overwrite other tables, depending on the order).
* **C190** (exact reads): C28 for sources that fail; `read_exact` is the standard library's loop over `AccReader::read`.
* **C191** (code lengths): `CanonSpec.v` computes the codewords of RFC 1951, section 3.2.2, from the lengths alone; it takes
  the type of descriptions from the model and nothing else. The bound on symbols times levels is that of C14 (table sizes in `u32`).
* **C192** (bit-by-bit decoding): `puff` follows the algorithm of zlib's `puff.c`, written from memory (neither that file nor RFC 1951, on
  which C191 is modelled, was at hand); what matters is the second theorem, and that it knows the lengths only.
  The second theorem says what it computes without mentioning the code under verification.
* **C193** (mirrored bit orders): a relation between two runs of the model, stated bit by bit (`mirrored`); it follows from
  C78 and C85, whose queue has no bit order. `codes_fit` of the mirrored description is asked for because codes are kept in
  32 bits and MSB codewords may not be longer than 41 bits.
* **C194** (words of a description): a relation between two codebooks, from C85. That the positions are the same is stated by
  `left` and `consumed` (C78).
* **C195** (fields): the program that puts fields one behind the other is a client (`FieldSpec`); slices `&mut buf[at..]` are
  `skipn`, never beyond the end here.
* **C196** (starting later): a relation between two runs of the model, from the exact theorem behind C15 for a reader at any
  position; `&buf[o..]` is `skipn`. Near the end the two readers fetch different
  words and the statement is false (`C196_near_the_end_refuted`: 13 bytes, the ninth is read as 0 or as itself).
* **C197** (loops over codewords): the loop is a client (`CbLoopSpec.read_all`); fuel counts its reads, and "endless" means that
  no number of reads is enough. What the hypotheses leave
  (a complete code with words of more than 8 bits on a buffer one byte longer than whole 8-byte blocks, incomplete codes) is
  decided by `available() + 1` reads (C197_soon_or_never).
* **C198** (runs of equal bits): the loop is a client (`RunSpec.count_run`), fuel as for C197. Exact within the limits of C05
  after any history (`C198_run_exact`), and for every buffer from a new reader (`C198_new_reader`); what is left, runs that
  reach into the last 8 bytes after other calls, is decided by `available() + 1` reads (`C198_soon_or_never`).
  A second client checks `available` before each read (`RunSpec.count_guarded`).
* **C179** (transcoder): the program is a loop over the contexts (`TranscodeSpec`, harness); its specification knows the bytes
  of the file, the decisions of parser and muxer and the codecs, but no readers, buffers or outputs.
* **C102, C103** (files behind `Writer`): an output is file-like if each call changes contents and position as documented;
  the history of calls is then one on the contents, with the pieces of a failed `write_all` existentially quantified.
* **C82-C84** (codec contexts, options, errors): the same calls made on the bare object.
* **C62-C64, C68, C69** (stream readers, packets on disk): script-driven readers.
* **C48-C61, C65, C66, C70-C77, C90-C94** (formats, frames, accessors): exact sizes in unbounded arithmetic; frames as byte
  lists per plane, `UB` for accesses outside of them.

A property whose id is marked *partial* below is either false of the code (a theorem named
`..._refuted` gives the witness) and proved under the stated restriction, or proved in part; the
note says which.
* **C115, C116** (`Display`): `TextSpec` reads numerals back (`value_from`) instead of producing them and lists the names
  by code; the proofs go through the standard library's decimal numbers and by induction on hexadecimal digits.
* **C117** (predefined formats): by computation; the table is in terms of the fields, not of the constructors.
* **C118** (numbers of buffers): the loops are split after the planes for which everything is there.
* **C119-C122** (demuxing on machine words): the two loops of `Context` once more over a reader whose `grow` may panic
  (`WordDemuxModel`). One lemma relates a call on words to the call on numbers: either the final buffer is below 2^63
  bytes and results and states are the same, or the call on words panics. Buffers only grow, so calls compose to
  sessions. C121 needs in addition that each round with incomplete headers adds a byte.
* **C141-C143** (benchmarks): the programs of the benches over the models. One pass of the loop is computed on the queue of
  C78 with the bits as a window of the stream; that the rest of a buffer is never fetched is an invariant of the queue
  (fetches of 32 or 64 bits only, and only if 64 are there).

## Findings (behaviour of the code that contradicts its documentation or a user's expectation)

Each is backed by the theorem in parentheses.

Bit reader and codebooks
1. Bits that `available()` counts can be unreadable: once fewer than 8 bytes are left to load nothing
   is loaded any more and reads deliver zeros (C13_available_bits_readable_refuted, C13_readable_exact).
2. `skip_bits(available())` on 24 bytes leaves 64 stale bits, which later reads return; skipping beyond
   makes `available()` panic; `skip_bits(129)` on a fresh reader over 16 bytes arrives at bit 66
   (C14_skip_past_end_refuted, C14_available_panics_refuted, C14_skip_exact).
3. With buffers of 2^29 bytes or more `available() as u32` wraps and `read_cb` rejects valid codewords
   (C15_huge_buffer_refuted).
4. A truncated codeword longer than 10 bits can decode to a symbol, and a failed look-up of that kind has
   consumed 10 bits (C21_truncated_codeword_refuted, C22_failed_read_position_refuted,
   C21_symbol_exact, C22_failed_read_exact).
5. A table description whose symbol type is narrower than the number of entries gives the same symbol
   to different codewords; a `codes` table shorter than `bits` makes the construction panic (C81). Clients cannot build
   one: `TableCodebookDescReader` has private fields and no constructor.

Demuxing
6. `AccReader`: a backward relative seek lands too far by the number of buffered bytes
   (C26_backward_seek_refuted).
7. `read_event` never returns when the demuxer reports the *missing* bytes, as the demuxer of the
   repository's own tests does (C36_read_event_livelock_refuted).
8. `read_headers` loops forever, growing its buffer, on truncated input (C37).
9. `read_headers` drops the error of the seek behind the headers (C38_failed_seek_refuted).
10. When the seek that goes with an event leaves the buffer and fails after the source has moved, `read_event`
    returns the error and the event is gone (C88_failed_seek_loses_event_refuted).
11. `read_event` and `read_headers` add the whole request to the buffer in every round: a packet of `n` bytes arriving
    one byte at a time leaves a buffer of `n * n` bytes more (C89_slow_source_exact).
    A fast source does not help: the buffer grows by a request whenever it runs empty and never shrinks, so with the square
    root of the length of the file (C182_growth_exact, C182_root_bound_partial).
12. A probe score of exactly the documented threshold is not accepted (C40_threshold_score_refuted).

Muxing, I/O
13. `add_stream` gives an automatic id equal to the old index: ids can collide (C42_automatic_ids_refuted).
14. `Writer` over an output that is not at position 0 reports displaced positions until the first seek
    (C44_displaced).
15. The stream getters do not retry `Interrupted` and lose the bytes read so far
    (C68_interrupted_getter_refuted); the peekers report the end of the stream when the buffer is short
    although data remains (C69_peek_eof_refuted).

Formats and frames
16. `get_linesize` is too small for depths below 8 (RGB565, width 103), not minimal for depths above 8
    and divides by 0 for depth 0 (C50, C74).
17. The 10-bit formats have depth and shift of the chroma components swapped (C51), the subsampling of
    4:2:2 is swapped (C72), the components of RGB48/RGBA64 overlap (C73).
18. The setters of `Formaton` take effect on a copy (C60).
19. `find_channel_id` truncates the position to 8 bits (C57).
20. `Display` of `Soniton` swaps two flags (C65), that of `Chromaton` panics for large depths or shifts (C75);
    `YCoCg` is displayed as `YCbCg` and `Reserved0` as `Identity` (DisplayModel).
21. `copy_plane_to_buffer` reads the luma width from chroma planes: out of bounds (C56); the copy
    functions are undefined behaviour or panic on default frames of the 10-bit formats and RGB565 for most widths
    (C70_predefined_exact: 4:2:0 with 10 bits works for widths 15 to 64 only) and copy
    only `width` bytes of a row of deeper samples (C71). The repository's own test
    `test_frame_copy_from_slice` is undefined behaviour before it panics as expected (C70_repository_test).
22. Copying a picture of width 0 panics (C90_empty_picture_refuted).
23. `Packet::default()` belongs to stream 0, `Packet::new()` to stream -1 (C91_default_packet_refuted).
24. A demuxer's request goes to `grow` unchecked, and `grow` panics when the buffer would reach 2^63 bytes: a size
    taken from the input has to be bounded by the demuxer (C96_grow_limit, C120_large_request_refuted). Without
    overflow checks a request near 2^64 shrinks the buffer instead (C120_release_request_refuted).
25. After skipping `usize::MAX` bits twice `consumed()` overflows (C95_bit_count_overflow_refuted).
26. In a build without overflow checks (cargo's release profile; `Cargo.toml` does not switch them on) the size of
    a frame wraps around: a picture of 96 x 192153584101141163 gets planes of 32 bytes with a stride of 96, and
    `copy_from_slice`, a safe function, writes past the end of the heap buffer (C98_release_undersized_refuted).
27. `AccReader` takes a reader it wraps to be at position 0. If it is not, `stream_position` and absolute seeks into
    the buffered bytes are off by its position until a seek reaches the source (C101_wrapped_late_refuted).
28. Repeating a `write_all` on `Writer` that failed writes the first bytes twice (C103_repeat_refuted). Seeking back to
    the position reported before repairs it (C103_seek_back_partial), but a muxer cannot do so: the methods of the trait
    `Muxer` get a `Writer<W>` with `W: Write` only, and `Context` lends its writer immutably.
29. `AccReader::read` asks the source for more whenever the slice is at least as long as what is buffered, even if it is
    exactly as long: a source that fails or blocks makes the buffered bytes unreadable that way
    (C104_buffered_unreadable_refuted; the exact condition is C104_needs_source_partial). `fill_buf` calls it whenever the
    buffer is not full (C180_fill_calls_source_refuted).
30. An `AccReader` of capacity 0 reports the end of the stream from `fill_buf`, hence from `read_until`, `read_line` and
    `lines`, although `read` works (C106_empty_buffer_refuted).
31. After a skip past the end `available()` panics in a build with overflow checks (finding of C78); without them it
    returns almost 2^64 (C111_release_available_refuted), so a caller that asks `available() >= n` before reading goes on
    reading zeros.
32. Without overflow checks `grow` with a request near 2^64, for instance one a demuxer has computed from the input,
    shortens the buffer; the buffered bytes are lost and the next `data()` panics (C114_release_grow_refuted).
33. Codewords of 42 bits and more panic in MSB mode when the codebook is built (C124_long_code_panics). Without overflow
    checks the codebook is built and decodes other bits than the codeword (C124_release_long_code_refuted); which ones is C189.
34. Without overflow checks `read_cb` behind the end of the buffer goes on returning the symbol of a codeword of zeros,
    without moving: a loop until the first error does not end (C125_release_beyond_end_refuted).
35. Packed components of 31 bits and more cannot be printed with overflow checks (C75); without them a component of 32
    bits is printed with the mask 0 (C126_release_mask_refuted), and the total depth of a format of 256 bits is 0 (C127).
36. Where `usize` has 32 bits `AccReader::seek` cuts off the position before it looks for it in the buffer (accreader.rs:170,
    183): `seek(Start(2^32 + 5))` goes to position 5 and returns 5 if that is buffered, `seek(Current(2^32))` stays where
    it is (C132_acc_far_seek_refuted, C132_acc_far_skip_refuted), and after a seek the source has carried out,
    `stream_position` gives the low 32 bits (C132_acc_position_afterwards). With overflow checks reading on panics
    at 4 GiB, without them the data is right (C131).
37. Where `usize` has 32 bits `Writer::seek` cuts off the position (muxer.rs:61): after a seek beyond 4 GiB
    `Writer::position` gives the low 32 bits (C133_writer_far_position_refuted). Writing past 4 GiB panics with overflow checks,
    after the bytes have been written, and leaves the low 32 bits without (C133_writer_any_width_partial).
38. The undersized frames of C98 need planes of 2^64 bytes; where `usize` has 32 bits planes of 4 GiB are enough: without
    overflow checks a picture of 96 x 44739243 gets planes of 32 bytes, and `copy_from_slice` writes behind them
    (C137_wasm32_undersized_refuted).
39. `available` and `consumed` (bitread.rs:202-209) multiply a number of bytes by 8 in `usize`.  Where it has 32 bits
    they panic from 2^29 bytes on, or without overflow checks count modulo 2^32: a new reader of 512 MiB reports no bit
    at all, and the loop of benches/bitstream.rs:10 would read nothing (C139_available_refuted).  `read_cb` asks
    `available` for each codeword and so panics on such a buffer (C140_codeword_refuted).
40. A loop `while reader.available() > 0 { .. }`, as in benches/bitstream.rs:10, never ends unless the buffer is of whole
    8-byte blocks (C141_drain_endless); with other reads than those of the benchmark at least whole 4-byte blocks are needed
    (C142_while_available_endless). `available` counts bytes at the end that no read ever fetches.
41. What C120 says of requests for 2^63 bytes takes only 2^31 where `usize` has 32 bits, less than a length field of 32
    bits may say: `read_event` and `read_headers` panic on such a file, with and without overflow checks
    (C145_large_request_refuted); without them 2^32 - 1 shortens the buffer by a byte, each time, until a buffered byte
    is cut off and the next access panics (C145_release_request_refuted). A file that ends within its headers needs 2^31 rounds or
    fewer to end in a panic (C146_truncated_headers_panic).
42. Table entries keep offsets and symbol numbers in 24 of their 32 bits (codebook.rs:127, 134) and nothing checks that
    they fit. 820 codewords of 210 bits need 2^24 + 17408 entries (64 MiB); the codebook is built without an error and
    its last codeword is decoded as another symbol (C149_large_table_refuted). 2^24 entries still work. Symbols beyond
    the first 2^24 are never returned (C149_many_symbols_refuted).
43. With overflow checks `AccReader::seek` panics on positions it has buffered: line 171 of accreader.rs computes
    `index + end - pos` from the left, so a seek to `index` or beyond fails as soon as `index + end` does not fit, which
    is up to a buffer's length before the data reaches that far (C150_acc_call_panics_exactly, C150_example).
44. `Codebook::new` does not notice that a description is not prefix-free. With codewords of at most 10 bits the last
    entry that matches wins (C154_last_match_wins_partial), and with longer ones too as long as clashing words end in
    the same ten bits (C171). Beyond that short words win in the first ten bits and longer ones after that, so that a
    word may be rejected although it comes next (C172_example). And a bucket whose first 10 bits are taken
    keeps offset 0 (codebook.rs:219, 343) and is then written over the beginning of the main table: words that overlap
    with no other are decoded as another symbol of another length (C154_unrelated_word_refuted), and two such buckets
    overwrite each other in the order of a hash map with a random seed, so the same description decodes the same bytes
    differently from run to run (C154_order_refuted). C173 says exactly what is read, for all descriptions. It never panics or loops, though (C152, C153).
45. A codeword that does not fit its length is no `InvalidCodebook` either: construction panics (C155_misfits_panic), or
    takes it for another codeword when the shift loses the surplus bits (C155_misfit_accepted_refuted).
    Longer codewords that do not fit can chain their tables: with 31 codewords of 11 bits a symbol takes 41 bits
    (C165_longer_than_codewords_refuted). Reads still end and do not panic (C164).
46. `AccReader::get_mut` invites moving the inner reader, but the buffer is not discarded and `index` not adjusted: seeks
    to positions believed to be buffered then deliver the old bytes and after them those from wherever the inner reader
    is (C157_moved_under_refuted). Unlike `BufReader`, whose documentation warns of it, nothing is said about this.
47. `read_cb` can loop forever. It relies on `available` to notice the end of the buffer, but the last bytes, when fewer than
    eight, are counted there and neither loaded nor skipped (finding 1). So once an escape leads back to a
    table on its own path, which happens when the table has more than 2^24 entries and the offset is cut off, the loop
    goes on with the same bits and the same position (C166_endless_read_refuted: 820 codewords of 210 bits and any
    buffer of 2 to 7 bytes, for some order of the hash map; C166_misfit_endless_refuted: 16384 codewords too large for
    their 20 bits, for every order). With smaller tables reads end (C164).
48. A seek of `AccReader` moves first and refills then; if the refill fails it reports an error although it has moved. A
    caller that takes an error to mean that nothing moved, as `AccReader` itself does, then delivers its old bytes followed
    by those from the new place (C167_failing_seek_refuted).
49. `get_buffer` adds up the counts a reader reports without comparing them with the room it gave. With a reader that
    reports too many bytes the getters return values of bytes never read (C168_getter_refuted); `read_exact` panics.
50. `FrameBuffer` is a safe trait, but the copies use what its `linesize` says in unsafe code without a check. An
    implementation in safe code whose line size does not go with its slices makes them undefined behaviour
    (C169_trust_refuted), also if the two went together when asked before (C169_checked_refuted).
51. A loop `while let Ok(s) = reader.read_cb(&cb)` need not end. The bytes at the end that are counted but never loaded
    (finding 1) keep `available` above 0, reads deliver zeros, and a codeword of zeros is decoded again and again without
    the reader moving. With a complete code, the usual kind, this happens for every buffer of `n` bytes if `n mod 8` is at
    least 2, and if it is 1 and the codewords have at most 8 bits (C197_complete_endless); a decoder that collects the symbols
    runs out of memory. With whole 8-byte blocks, or without such a codeword, the loop ends (C197_whole_blocks_partial,
    C197_loop_ends_partial).
52. `while !reader.get_bit() { n += 1 }`, the usual way to read a unary or Exp-Golomb prefix, never ends if only zeros are
    left (C198_zeros_endless), for reads past the end give zeros and do not move the reader; a one in the bytes that are never
    loaded (finding 1) does not end it either (C198_new_reader). A client that checks `available` at every
    step is safe with whole 8-byte blocks (C198_guarded_blocks); if the length is no multiple of 8 it stays above 0 and the check
    changes nothing (C198_guarded_same).

## Wrong programs

`tools/mutate.py` applies one edit to a model file in a scratch copy, rebuilds everything, replaces each
lemma that no longer proves by an axiom named after it and goes on, and finally reads which property
theorems depend on such an axiom (`Print Assumptions`). `seeded/LOG.jsonl` has one line per edit.
`tools/automutate.py` is the fast variant: it strips the examples, stops at the first lemma that no longer proves and
takes the property theorems that use it from the `.glob` files. Besides lists of edits it makes its own: up to two per
definition (constants, comparisons, operators, branches, outcomes). Survivors were the texts and names
of `Display`, fields of the predefined formats, `is_empty` of the description readers, the extradata of a stream, and the
outcome of `unwrap` when copying; C115-C118, C80_empty_descriptions and C92_stream_extradata were added for them. What is
left is equivalent (an index check before an access that panics anyway, the capacity of an empty packet).
With `--state` it makes edits of another kind: an older version of a variable in place of the new one, a call that is not
made, lengths off by one, results and concatenations that are lost or exchanged. Survivors were the payloads compared by equality of media kinds, the buffer left by a copy of a
plane, and the programs of the benchmarks; C61_info_equality was extended and C169_plane_calls and C143_bench_programs were added
for them. Definitions that no theorem mentioned (accessors of readers, writers and contexts) were found by searching the
statements and are in C183. What is left is equivalent here too: which context is handed back when the model runs out of
rounds, and a registry that keeps a shadowed entry.

With `--field` a field of a record, a constructor or a function is replaced by another one of the same type.

## Properties and theorems

| id | property | status | theorems | note |
|---|---|---|---|---|
| C01 | Fixed-width put/get round trip | proved | `C01_put_get_roundtrip` |  |
| C02 | Byte placement of multi-byte getters | proved | `C02_getters_place_bytes`, `C02_le_number_unique` |  |
| C03 | Too-short buffers always panic, long enough ones never do | proved | `C03_short_buffers_panic` |  |
| C04 | Signed getters are two's complement | proved | `C04_signed_getters_twos_complement` |  |
| C05 | Bit reads return exactly the stream's bits | proved | `C05_bit_reads_exact` |  |
| C06 | Peeking never changes the reader and predicts the next read | proved | `C06_peek_predicts_get` |  |
| C07 | consumed + available is constant | proved | `C07_consumed_plus_available` |  |
| C08 | Skipping equals reading and discarding | proved | `C08_skip_is_read_and_discard` |  |
| C09 | align_bits moves to the next byte boundary and nowhere else | proved | `C09_align_to_byte_boundary`, `C09_align8_is_next_boundary` |  |
| C10 | Overreading yields zero bits and never panics | proved | `C10_overread_zero_fill` |  |
| C11 | Splitting a read does not change the bits | proved | `C11_split_read` |  |
| C12 | 64-bit-path reads are exact up to the very last bit | proved | `C12_exact_to_the_end_64` |  |
| C13 | Every bit reported by available() can be read | partial | `C13_available_bits_readable_refuted`, `C13_available_bits_readable_partial`, `C13_readable_exact` | false as stated (the last 7 bytes can be unreadable); C13_readable_exact says exactly which bits can be read and what is delivered instead of the others |
| C14 | Skipping past the end exhausts the reader | partial | `C14_skip_past_end_refuted`, `C14_available_panics_refuted`, `C14_skip_past_end_partial`, `C14_skip_exact` | false as stated (stale bits survive a skip past the end, available can underflow); C14_skip_exact gives position and availability after every skip in every state |
| C15 | Codebook decoding returns the symbol whose codeword comes next | proved | `C15_codebook_decodes`, `C15_huge_buffer_refuted` | for buffers below 2^29 bytes; the refutation shows the bound is needed |
| C16 | Unknown codewords are rejected | proved | `C16_unknown_codewords_rejected` |  |
| C17 | Encode/decode round trip over whole messages | proved | `C17_message_round_trip` |  |
| C18 | Codebook construction succeeds exactly on non-empty codebooks | proved | `C18_construction` |  |
| C19 | Decoding does not depend on HashMap iteration order | proved | `C19_order_independent` |  |
| C20 | reverse_bits reverses all 32 bits | proved | `C20_reverse_bits` |  |
| C21 | A truncated codeword never decodes to a symbol | partial | `C21_truncated_codeword_refuted`, `C21_truncated_codeword_partial`, `C21_symbol_exact` | false with escapes (codewords longer than 10 bits); proved for codebooks without; for all codebooks the bits that must be available |
| C22 | A failed read_cb leaves the reader where it was | partial | `C22_failed_read_position_refuted`, `C22_failed_read_position_partial`, `C22_failed_read_exact` | false with escapes (codewords longer than 10 bits); proved for codebooks without; for all codebooks the exact skips |
| C23 | AccReader delivers the source bytes in order, none lost or duplicated | proved | `C23_source_bytes_in_order` |  |
| C24 | AccReader::seek lands where asked | proved | `C24_seek_lands` |  |
| C25 | stream_position reports the position of the next byte | proved | `C25_position_reported` |  |
| C26 | Backward relative seeks land where asked | partial | `C26_backward_seek_refuted`, `C26_backward_seek_partial`, `C26_backward_seek_offset_partial` | false when data is buffered (lands too far by the number of buffered bytes); proved when nothing is buffered |
| C27 | Growing or resetting the buffer never changes visible data | proved | `C27_grow_reset_transparent` |  |
| C28 | read_exact fills the whole buffer or reports UnexpectedEof | proved | `C28_read_exact` |  |
| C29 | AccReader never panics and never exceeds its buffer | proved | `C29_window_bounds` |  |
| C30 | I/O errors of the source lose no data | proved | `C30_failures_lose_nothing` |  |
| C31 | Events do not depend on how the source is chunked | proved | `C31_events_of_the_source`, `C31_chunking_independent`, `C31_headers_then_events` |  |
| C32 | read_event reports end of file only at the end of the source | proved | `C32_eof_only_at_the_end` |  |
| C33 | Packets without a timebase get their stream's timebase | proved | `C33_packet_timebase` |  |
| C34 | Every NewStream event registers its stream exactly once | proved | `C34_streams_registered` |  |
| C35 | Demuxer errors reach the caller unchanged | proved | `C35_demuxer_errors_returned`, `C35_seek_errors_returned`, `C35_fill_errors_returned`, `C35_error_origin`, `C35_header_errors_returned`, `C35_header_fill_errors_returned`, `C35_header_error_origin` |  |
| C36 | read_event makes progress when more data is requested and available | partial | `C36_read_event_livelock_refuted`, `C36_read_event_returns_partial`, `C36_rounds_partial`, `C36_rounds_reached`, `C36_small_request_hangs`, `C36_large_request_progress` | false for demuxers that report the number of missing bytes; proved for incremental parsers that report the total, also with sources that fail; the last two theorems say when a round makes progress, for any demuxer |
| C37 | read_headers terminates on truncated input | partial | `C37_truncated_headers_refuted`, `C37_truncated_headers_always_hang`, `C37_complete_headers_partial`, `C37_header_rounds_partial`, `C37_rounds_reached`, `C37_failing_source_partial` | false (read_headers loops forever on truncated input); proved for complete headers, with the number of rounds, also with sources that fail |
| C38 | read_headers success means the reader is positioned after the headers | partial | `C38_failed_seek_refuted`, `C38_any_demuxer_partial`, `C38_position_after_headers_partial`, `C38_position_exact` | false when the source refuses the seek (the error is dropped); proved for sources that do not fail; with others the position is the requested one or 0 |
| C39 | Probe returns the first best-scoring format above the threshold | proved | `C39_probe_first_best`, `C39_probe_none` |  |
| C40 | A score equal to PROBE_SCORE_EXTENSION is accepted | partial | `C40_threshold_score_refuted`, `C40_above_threshold_partial` | false for a score of exactly 50; proved above |
| C41 | add_stream numbers streams consecutively | proved | `C41_add_stream`, `C41_consecutive` |  |
| C42 | Streams with automatic ids get unique ids | partial | `C42_automatic_ids_refuted`, `C42_automatic_ids_partial` | false: an automatic id is the index the stream had before, which is 0 for every stream made by from_params (C41_consecutive gives all ids exactly); the ids are unique exactly when the old indices are |
| C43 | Muxer lookup by name returns the first match | proved | `C43_by_name`, `C43_by_name_none` |  |
| C44 | Writer::position is the position in the underlying output | proved | `C44_position`, `C44_accepted_bytes`, `C44_write_all`, `C44_displaced` |  |
| C45 | Muxer output is header, packets and trailer in call order | proved | `C45_calls_in_order`, `C45_output`, `C45_whole_output` |  |
| C46 | Codec lookup returns the first registered codec of that name | proved | `C46_lookup`, `C46_context_by_name` |  |
| C47 | Registering more codecs never changes an existing lookup | proved | `C47_append_keeps_lookups`, `C47_append_commutes` |  |
| C48 | Audio size is the smallest aligned size that holds the samples | proved | `C48_audio_size`, `C48_audio_size_returned`, `C48_audio_size_exact` |  |
| C49 | Component dimensions are rounded-up divisions | proved | `C49_component_size`, `C49_component_exact` |  |
| C50 | The stride of a component can hold a full line | partial | `C50_stride_refuted`, `C50_stride_partial`, `C50_data_size` | false for depths below 8 (RGB565): up to 8 - depth bits are missing; proved from depth 8 on |
| C51 | Predefined 10-bit formats have 10-bit components | partial | `C51_ten_bit_refuted`, `C51_ten_bit_partial` | false: the arguments of the chroma components are swapped; the luma component is right |
| C52 | A default video frame has one zeroed plane per component, exactly sized | proved | `C52_video_planes`, `C52_video_created`, `C52_usual_sizes` |  |
| C53 | A default audio frame has the right planes | proved | `C53_audio_planes`, `C53_audio_created` |  |
| C54 | copy_from_slice then copy_frame_to_buffer returns the picture | proved | `C54_round_trip`, `C54_any_planes` |  |
| C55 | copy_plane stays inside its buffers and copies exactly the rectangle | proved | `C55_copy_plane`, `C55_copy_plane_unsafe` |  |
| C56 | copy_plane_to_buffer is memory safe for every plane | partial | `C56_plane_to_buffer_refuted`, `C56_plane_to_buffer_partial`, `C56_plane_to_buffer_exact` | false for subsampled planes: the picture width is read from them; proved for planes with a stride of at least the picture width; the last theorem has the outcome in all cases |
| C57 | Channel lookup returns the first position of the channel | partial | `C57_find_channel_refuted`, `C57_find_channel_partial`, `C57_find_channel_exact`, `C57_add_channels` | false for maps of more than 256 channels (the position is truncated to u8) |
| C58 | Every channel is exactly one of centre, left, right | proved | `C58_channel_sides` |  |
| C59 | Colour enumerations parse exactly their published code points | proved | `C59_published`, `C59_round_trip` |  |
| C60 | Formaton setters take effect | partial | `C60_setters_refuted`, `C60_setters_partial` | false: the setters change a copy |
| C61 | Stream-information equality is an equivalence that ignores per-frame data | proved | `C61_info_equality`, `C61_equivalence` |  |
| C62 | Packet write/read round trip | proved | `C62_get_packet`, `C62_round_trip` |  |
| C63 | Stream byte readers return consecutive values | proved | `C63_stream_getters`, `C63_readers` |  |
| C64 | Stream byte peeking does not consume | proved | `C64_stream_peekers`, `C64_peek_then_get` |  |
| C65 | Display of audio formats labels its flags correctly | partial | `C65_display_refuted`, `C65_display_partial` | false: the two flags are printed in the wrong order |
| C66 | Format construction keeps every component | proved | `C66_formaton_new` |  |
| C67 | A codeword read never panics, wherever the reader stands | proved | `C67_read_never_panics` |  |
| C68 | Stream byte readers survive interruptions | partial | `C68_interrupted_getter_refuted`, `C68_uninterrupted_partial`, `C68_interrupted_exact` | false: get_buffer has no retry; proved for readers that are not interrupted; the last theorem has what an interrupted getter loses |
| C69 | A peek fails with UnexpectedEof only at the end | partial | `C69_peek_eof_refuted`, `C69_peek_retry_partial`, `C69_small_buffer` | false: a short buffer is reported as the end of the stream; at most k peeks are enough, unless the buffer is smaller than k bytes: then no number is |
| C70 | Copying into and out of default frames of predefined formats is memory safe | partial | `C70_copy_safe_refuted`, `C70_copy_safe_partial`, `C70_copy_exact`, `C70_predefined_exact` | false for the 10-bit formats and RGB565; proved when every component fits its plane; the other theorems have the outcome in all cases and the widths that can be copied for each predefined format |
| C71 | Copying keeps samples of more than 8 bits | partial | `C71_deep_samples_refuted`, `C71_round_trip_exact` | false: width bytes are copied per row, whatever the depth; C70_copy_safe_partial gives what is copied |
| C72 | Predefined YUV formats have the subsampling of their names | partial | `C72_subsampling_refuted`, `C72_subsampling_partial` | false for 4:2:2; proved for the other 8-bit formats |
| C73 | Components of predefined packed formats do not overlap | partial | `C73_packing_refuted`, `C73_packing_partial` | false for RGB48 and RGBA64; proved for the others |
| C74 | The stride is the smallest aligned one | partial | `C74_minimal_stride_refuted`, `C74_minimal_stride_partial`, `C74_stride_exact` | false for depths above 8 |
| C75 | Displaying a component never panics | partial | `C75_display_refuted`, `C75_display_partial` | false for depths from 31 and shifts from 32 on |
| C76 | Enumeration members are displayed with distinct names | proved | `C76_names` |  |
| C77 | Typed views of a default frame | proved | `C77_typed_views`, `C77_view_exact` |  |
| C78 | The bit reader is a queue topped up from the stream | proved | `C78_bit_queue_exact` |  |
| C79 | 64-bit reads deliver exactly the whole 8-byte blocks | proved | `C79_whole_blocks_exact` |  |
| C80 | Codebooks can be built from any description | proved | `C80_any_description_reader`, `C80_short_positions`, `C80_empty_descriptions` |  |
| C81 | Table descriptions decode to positions | partial | `C81_table_positions_partial`, `C81_narrow_symbols_refuted`, `C81_missing_codes` | false when the symbol type cannot hold all positions (symbols repeat) or when there are fewer codewords than lengths (the construction panics); proved otherwise |
| C82 | Codec contexts are transparent | proved | `C82_decoder_context`, `C82_encoder_context`, `C82_unknown_codec` |  |
| C83 | Option values keep key, type and value | proved | `C83_option_values` |  |
| C84 | Error texts identify the error | proved | `C84_codec_error_texts`, `C84_format_error_texts`, `C84_io_error_source`, `C84_other_error_texts`, `C84_other_error_literals` |  |
| C85 | read_cb is decoding from a bit queue, in every state | proved | `C85_codeword_queue_exact` |  |
| C86 | Codewords are exact to the last bit of 8-byte blocks | proved | `C86_exact_to_the_end`, `C86_rejects_at_the_end`, `C86_unpadded_messages` |  |
| C87 | What a muxer wrote is what a demuxer reads | proved | `C87_mux_then_demux`, `C87_length_prefixed` | the second theorem is an instance whose muxer and parser use the byte functions of the bitstream crate |
| C88 | An I/O error returned while demuxing loses nothing | partial | `C88_failed_seek_loses_event_refuted`, `C88_retried_events_partial`, `C88_retried_headers` | false for events whose seek leaves the bytes the demuxer was given (the event is lost when that seek fails); proved for all other parsers, and for headers without restriction |
| C89 | The buffer stays within a constant factor of its capacity plus the largest request | partial | `C89_bounded_buffer_refuted`, `C89_slow_source_exact`, `C89_buffer_bound_partial` | false: every round adds the whole request, so the buffer can grow with the square of the request; proved instead: at most one request per source byte and call |
| C90 | Copying an empty picture does nothing | partial | `C90_empty_picture_refuted`, `C90_empty_picture_partial` | false for width 0 and depths up to 8: the stride is 0 and copying panics; proved otherwise |
| C91 | A default packet is a new packet | partial | `C91_default_packet_refuted`, `C91_default_packet_partial` | false: stream_index is 0 in the derived default and -1 in a new packet; all other fields agree |
| C92 | Accessors return what the constructor was given | proved | `C92_component_access`, `C92_format_access`, `C92_sample_access`, `C92_info_access`, `C92_stream_extradata`, `C92_stream_fields` |  |
| C93 | Predefined formats have the components of their colour model | proved | `C93_predefined_components`, `C93_model_components` |  |
| C94 | Default channel maps are the documented ones | proved | `C94_default_maps`, `C94_other_counts` |  |
| C95 | Bit counts fit machine words | proved | `C95_bit_reader_words`, `C95_bit_count_overflow_refuted` | the bound on the bits skipped is needed: the refutation gives a history outside of it |
| C96 | AccReader positions fit machine words | proved | `C96_acc_reader_words`, `C96_grow_limit` |  |
| C97 | Builds without overflow checks agree where checked builds do not panic | proved | `C97_release_agrees` |  |
| C98 | Default frames have room for their picture without overflow checks | partial | `C98_release_undersized_refuted`, `C98_release_sizes_partial` | false: 96 x 192153584101141163 gives planes of 32 bytes with stride 96, and copying into them is undefined behaviour; proved where the sizes fit |
| C99 | Default frames are created exactly when their sizes fit | proved | `C99_component_size_exact`, `C99_audio_size_exact`, `C99_video_created_exact`, `C99_audio_created_exact` |  |
| C100 | Every sequence of calls on AccReader is that of a three-number machine | proved | `C100_any_history` |  |
| C101 | AccReader may wrap a reader at any position | partial | `C101_wrapped_late_refuted`, `C101_seek_end_partial` | false: the reader assumes it starts at 0, so seeks into the window are off by the starting position; a seek relative to the end is right and repairs the rest; from position 0 see C24 |
| C102 | Writer changes a file exactly as the calls say | proved | `C102_contents` | any file-like output |
| C103 | A failed write may be repeated | partial | `C103_repeat_refuted`, `C103_seek_back_partial` | false: the bytes written before the failure stay and are written again; seeking back to the position reported before the call first repairs it |
| C104 | Buffered bytes can be read while the source fails | partial | `C104_buffered_unreadable_refuted`, `C104_needs_source_partial` | false: asking for exactly the buffered bytes calls the source, unless they fill the buffer; exact condition proved |
| C105 | read_to_end through AccReader returns the rest of the source | proved | `C105_read_to_end` |  |
| C106 | read_until through AccReader returns the next line | partial | `C106_empty_buffer_refuted`, `C106_read_until_partial` | false for capacity 0; proved for any other |
| C107 | The byte count of Writer on machine words | proved | `C107_writer_words`, `C107_writer_starts` |  |
| C108 | The byte count of get_buffer on machine words | proved | `C108_get_buffer_words` |  |
| C109 | The bit reader without overflow checks agrees where the checked one does not panic | proved | `C109_release_bits_agree` |  |
| C110 | The bit reader without overflow checks is a bit queue | proved | `C110_release_queue_exact` |  |
| C111 | available never reports more bits than the buffer has | partial | `C111_release_available_refuted`, `C111_release_available_partial` | false: after a skip past the end available wraps around to almost 2^64; proved: consumed and available add up to the buffer exactly as long as consumed stays within it |
| C112 | AccReader without overflow checks agrees where the checked one does not panic | proved | `C112_release_acc_agrees` |  |
| C113 | AccReader without overflow checks never panics | proved | `C113_release_acc_never_panics` |  |
| C114 | Growing keeps the buffered bytes without overflow checks | partial | `C114_release_grow_refuted`, `C114_release_grow_partial` | false: a request near 2^64 wraps around and cuts the buffer; proved: exactly when it panics, keeps the bytes, or loses them |
| C115 | Displayed numbers are the numbers | proved | `C115_component_text`, `C115_format_text`, `C115_other_texts` |  |
| C116 | Displayed names are those of the codes | proved | `C116_names`, `C116_model_names` |  |
| C117 | The predefined formats in full | proved | `C117_planar_formats`, `C117_packed_formats`, `C117_sample_formats` | with the mistakes in the 10-bit, 4:2:2 and 16-bit formats (C51, C72, C73) |
| C118 | Copying with more or fewer buffers than planes | proved | `C118_too_few_sources`, `C118_more_sources`, `C118_destinations`, `C118_no_such_plane`, `C118_audio_copies` |  |
| C119 | Demuxing on machine words | proved | `C119_context_words` |  |
| C120 | A request for more data cannot crash the context | partial | `C120_large_request_refuted`, `C120_release_request_refuted`, `C120_bounded_requests_partial` | false: requests of 2^63 bytes or more crash the context; safe if the requests of all rounds together stay below 2^63 bytes |
| C121 | Truncated headers end in a panic | proved | `C121_truncated_headers_panic` |  |
| C122 | Demuxing without overflow checks agrees where the checked build does not panic | proved | `C122_release_context_agrees` |  |
| C123 | Codebooks without overflow checks agree where the checked build does not panic | proved | `C123_release_construction`, `C123_release_histories` |  |
| C124 | Without overflow checks every codeword of a description is decoded | partial | `C124_long_code_panics`, `C124_release_long_code_refuted`, `C124_release_messages_partial` | false for codewords of 42 bits and more in MSB mode, which panic with overflow checks and are decoded wrongly without; proved for all shorter ones |
| C125 | Without overflow checks a codeword read behind the end fails | partial | `C125_release_beyond_end_refuted`, `C125_release_codewords_exact`, `C125_release_at_the_end_partial` | false: behind the end codewords of zeros are decoded for ever; proved: the exact behaviour everywhere, and that reads at the end fail |
| C126 | Without overflow checks components are printed with their masks | partial | `C126_release_mask_refuted`, `C126_release_mask_partial`, `C126_release_format`, `C126_release_texts_agree` | false for packed components of 32 bits and more; proved for depths and shifts below 32, and which text is printed otherwise |
| C127 | Without overflow checks the total depth is reduced modulo 256 | proved | `C127_release_total_depth` |  |
| C128 | Without overflow checks the counters wrap around and nothing else changes | proved | `C128_release_writer`, `C128_release_get_buffer` |  |
| C129 | At 64 bits the buffered reader for any width is the one on 64-bit words | proved | `C129_acc_on_64_bits` |  |
| C130 | The buffered reader works the same for any width of usize | proved | `C130_acc_any_width` |  |
| C131 | Reading on past the last usize position | proved | `C131_acc_reads_on` |  |
| C132 | A seek goes where it is told to, whatever the width of usize | partial | `C132_acc_far_seek_refuted`, `C132_acc_far_skip_refuted`, `C132_acc_seek_start_partial`, `C132_acc_seek_current_partial`, `C132_acc_position_afterwards` | false on 32 bits from position 2^32 on: the position is cut off before it is looked for in the buffer; proved: exactly what a seek does |
| C133 | The position of Writer for any width of usize | partial | `C133_writer_far_position_refuted`, `C133_writer_any_width_partial`, `C133_writer_on_64_bits` | false on 32 bits beyond 4 GiB: the position is the low 32 bits; proved: exactly what happens over any output, for any width |
| C134 | The byte count of get_buffer for any width of usize | proved | `C134_get_buffer_any_width` |  |
| C135 | Frames and copies are the same for any width of usize | proved | `C135_frames_wider`, `C135_frames_on_64_bits` |  |
| C136 | When a default frame can be created, for any width of usize | proved | `C136_frames_created_any_width` |  |
| C137 | Copies stay within default frames, whatever the width of usize | partial | `C137_wasm32_undersized_refuted`, `C137_fitting_frames_partial` | false without overflow checks: sizes wrap around, on 32 bits already for pictures of 4 GiB; proved where the sizes fit |
| C138 | The bit reader is the same for any width of usize | proved | `C138_checked_any_width`, `C138_unchecked_any_width`, `C138_unchecked_queue`, `C138_on_64_bits` |  |
| C139 | consumed and available count the bits, whatever the width of usize | partial | `C139_available_refuted`, `C139_checked_counts_partial` | false: 2^29 bytes have 2^32 bits, more than a usize of 32 bits counts; proved when exactly they count |
| C140 | Codeword reads are the same for any width of usize | partial | `C140_codeword_refuted`, `C140_checked_histories_partial`, `C140_unchecked_histories_partial` | false with overflow checks: a codeword read counts the available bits, see C139; proved where they can be counted, and without overflow checks for all buffers |
| C141 | A loop over available ends | proved | `C141_drain_whole_blocks`, `C141_drain_endless` |  |
| C142 | The last bytes are never consumed | proved | `C142_tail_never_consumed`, `C142_while_available_endless` |  |
| C143 | The benchmarks run through and read what they should | proved | `C143_bench_never_panics`, `C143_bench_reads_exact`, `C143_bench_programs`, `C143_bench_sizes`, `C143_bench_accreader` |  |
| C144 | Demuxing for any width of usize | proved | `C144_context_any_width` | without overflow checks the panic is claimed for requests shorter than half the address space; longer ones see C145_release_request_refuted |
| C145 | A request for more data cannot crash the context, whatever the width of usize | partial | `C145_large_request_refuted`, `C145_release_request_refuted`, `C145_bounded_requests_partial` | false: a request for half the address space panics in the first round, with 32 bits any length field of 32 bits; proved for bounded requests |
| C146 | Truncated headers end in a panic, whatever the width of usize | proved | `C146_truncated_headers_panic` |  |
| C147 | Demuxing for any width of usize includes that on 64 bits | proved | `C147_context_on_64_bits` |  |
| C148 | Overflow checks change no result, whatever the width of usize | proved | `C148_unchecked_acc`, `C148_unchecked_context`, `C148_unchecked_writer`, `C148_unchecked_get_buffer`, `C148_unchecked_bits`, `C148_unchecked_frames` |  |
| C149 | Size of the lookup tables and the limit of 2^24 entries | proved | `C149_table_size`, `C149_few_codes`, `C149_large_table_refuted`, `C149_first_symbols`, `C149_many_symbols_refuted` | the refutations show what happens beyond 2^24 entries or symbols |
| C150 | When AccReader panics, for any width of usize | proved | `C150_acc_never_panics_unchecked`, `C150_acc_panics_exactly`, `C150_acc_call_panics_exactly` |  |
| C151 | When AccReader::grow fails or loses data, for any width of usize | proved | `C151_acc_grow_any_width` |  |
| C152 | Construction of codebooks that are not prefix-free | proved | `C152_malformed_construction` |  |
| C153 | Codebooks that are not prefix-free are safe to read with | proved | `C153_malformed_reads` |  |
| C154 | When several codewords match the last entry wins | partial | `C154_last_match_wins_partial`, `C154_last_match_stream_partial`, `C154_unrelated_word_refuted`, `C154_order_refuted` | true for codewords of at most 10 bits, and for longer ones that clash only within the same ten bits (C171); C172 and C173 say what happens with all others; in general false of the code |
| C155 | Codewords that do not fit their length | proved | `C155_misfits_panic`, `C155_misfit_accepted_refuted` | the refutation shows a value that does not fit its length but the table, by losing bits |
| C156 | AccReader whose inner reader is touched | proved | `C156_inner_touched` | with C100 and no touches the bytes to come are those of the source; what is done to the inner reader is any function that leaves a reader over the (possibly changed) bytes |
| C157 | Seeks after the inner reader was moved | partial | `C157_moved_under_refuted`, `C157_outside_seek_partial` | false for positions the reader takes to be buffered: nothing is invalidated by get_mut; every other absolute seek and every seek relative to the end is right and repairs the rest |
| C158 | Construction of codebooks for any width of usize | proved | `C158_construction_any_width` | an allocation grants or refuses a size, at most isize::MAX bytes; which sizes std asks for is left open |
| C159 | Codebooks are built and decode on any width of usize | proved | `C159_build_and_decode` | without overflow checks for widths up to 64 bits |
| C160 | Packets when memory cannot be had | partial | `C160_packets_allocated`, `C160_short_source_refuted`, `C160_get_packet_partial` | false of get_packet: the memory is asked for first, and a request above isize::MAX panics whatever the source holds; with the memory the result is that of C62 |
| C161 | AccReader when memory cannot be had | proved | `C161_readers_allocated`, `C161_growth`, `C161_new_reader` | which sizes std asks for beyond the length needed is left open |
| C162 | Default frames when memory cannot be had | proved | `C162_frames_allocated`, `C162_same_frame` |  |
| C163 | Construction of codebooks from any description | proved | `C163_any_construction` | a panic remains possible (C155); the length of a codeword is a u8 |
| C164 | Reading with codebooks from any description | proved | `C164_any_reads` |  |
| C165 | A codeword read uses no more bits than the longest codeword has | partial | `C165_bits_used_partial`, `C165_longer_than_codewords_refuted`, `C165_any_description_partial` | true for codewords that fit their lengths; false of the code otherwise, where the size of the table bounds the bits |
| C166 | A codeword read ends, whatever the size of the table | partial | `C166_any_size`, `C166_rounds`, `C166_ends_before_tail_partial`, `C166_whole_words_partial`, `C166_endless_read_refuted`, `C166_misfit_endless_refuted`, `C166_never_ends_exact` | no panic whatever the size; reads end except where the last bytes cannot be loaded, where they need not |
| C167 | An AccReader may wrap an AccReader | partial | `C167_nested_reads`, `C167_nested_seeks_partial`, `C167_failing_seek_refuted` | false for seeks over a source that fails: a seek whose refill fails reports an error although it has moved; holds without seeks, and with them (but see C26) if the source does not fail |
| C168 | Readers that report too many bytes | partial | `C168_panics_exactly`, `C168_large_reads`, `C168_getter_refuted`, `C168_getters` | false for getters, which take the rest of their zeroed buffer for the value, and for reads larger than the buffer, which pass the count on; AccReader panics exactly when its own buffer would be overrun |
| C169 | Copies with any implementation of FrameBuffer | partial | `C169_default_lawful`, `C169_lawful_copies`, `C169_safe_partial`, `C169_trust_refuted`, `C169_checked_refuted`, `C169_destinations`, `C169_plane_calls`, `C169_views` | false if the line size an implementation reports does not go with its slices; with implementations that keep to the documentation copies are those of the default buffer |
| C170 | Further inherited methods of AccReader and Writer | proved | `C170_read_vectored`, `C170_bytes`, `C170_take`, `C170_skip_until`, `C170_seeks`, `C170_write_vectored`, `C170_writer_stream_position` | skip_until needs a buffer that is not empty (C106); Writer passes one buffer of a vectored write on |
| C171 | Clashing codewords that end in the same ten bits | proved | `C171_covers`, `C171_last_match_queue_exact`, `C171_last_match_histories`, `C171_unmatched_rejected`, `C171_order_independent` | what C154 leaves of descriptions that are not prefix-free; the histories stay 9 bytes away from the end, the queue form does not |
| C172 | Codewords that are prefixes of any others | proved | `C172_covers`, `C172_constructed`, `C172_any_queue_exact`, `C172_order_independent` | generalises C171 to all descriptions in which no bucket of longer codewords is left without its table |
| C173 | Codebooks of any codewords at all | proved | `C173_exact`, `C173_every_order`, `C173_one_blocked`, `C173_unblocked`, `C173_same_search` | exact behaviour for every description of fitting codewords, prefix-free or not; generalises C19, C85, C171 and C172 |
| C174 | Codebooks of any codewords without overflow checks | proved | `C174_exact`, `C174_every_order`, `C174_same_codewords` | generalises C125_release_codewords_exact to every description of fitting codewords; histories that skip fewer than 2^64 bits in all |
| C175 | Codebooks of any codewords for any width of usize | proved | `C175_exact`, `C175_every_order` | generalises C159 to any fitting codewords and to reads at and behind the end; without overflow checks for widths up to 64 bits |
| C176 | Copies with any implementation of FrameBuffer for any width of usize | proved | `C176_lawful_copies`, `C176_wider`, `C176_on_64_bits`, `C176_safe`, `C176_destinations` | C169 and C135 together; that line sizes go with the slices cannot be left out (C169_trust_refuted) |
| C177 | Which calls of its source AccReader makes | proved | `C177_one_call`, `C177_calls`, `C177_bounds` | exact calls of each call, then histories over any inner reader |
| C178 | Reading byte by byte calls the source once per buffer less one byte | proved | `C178_byte_by_byte`, `C178_whole`, `C178_unbuffered` | once per capacity less one byte, not once per capacity, because a read of exactly the last buffered byte asks the source first |
| C179 | The output of a transcoder is determined by the file it reads | proved | `C179_output`, `C179_ends`, `C179_stable`, `C179_same_output`, `C179_contexts` | C31, C45 and C82 together, in one program |
| C180 | fill_buf calls the source only when nothing is buffered | partial | `C180_fill_calls_source_refuted`, `C180_fill_exact`, `C180_fill_consume` | false: the source is called unless the buffer is full, so its failures hide bytes that are there; exact condition proved, and that byte-wise use calls the source for every byte |
| C181 | Demuxing reads its source once per unmet request | proved | `C181_requests`, `C181_asked`, `C181_whole`, `C181_headers` |  |
| C182 | The buffer stays bounded when the source is fast | partial | `C182_fast_source_refuted`, `C182_growth_exact`, `C182_root_bound_partial` | false: the buffer grows by a request whenever it runs empty and never shrinks, so with the square root of the file; exact size for packets of one size, and the square-root bound in general |
| C183 | Accessors report what was read and written | proved | `C183_reader_views`, `C183_new_reader`, `C183_muxed_bytes` |  |
| C184 | Writer adds a position and nothing else | proved | `C184_transparent`, `C184_calls` |  |
| C185 | A muxing Context adds a flush and nothing else | proved | `C185_bare_output` |  |
| C186 | Demuxers may read for themselves | proved | `C186_self_reading` |  |
| C187 | Coded messages survive a file | proved | `C187_messages` | C17 and C87 together |
| C188 | Complete codes never reject a bit string | proved | `C188_complete_reads`, `C188_complete_decodes`, `C188_incomplete_rejects`, `C188_kraft_inequality` |  |
| C189 | What becomes of long codewords without overflow checks | proved | `C189_long_codes_exact`, `C189_long_messages`, `C189_short_codes`, `C189_moved_zeros`, `C189_too_large_panics` |  |
| C190 | Exact reads over sources that fail | proved | `C190_read_exact_failing` |  |
| C191 | Code lengths are enough to build a codebook | proved | `C191_canonical_valid`, `C191_canonical_messages`, `C191_lengths_possible`, `C191_canonical_complete` |  |
| C192 | Table decoding is bit-by-bit decoding | proved | `C192_reads_as_puff`, `C192_puff_exact` |  |
| C193 | The two bit orders mirror each other | proved | `C193_readers_mirrored`, `C193_codebooks_mirrored` |  |
| C194 | Only the words of a description matter | proved | `C194_only_the_words_matter` |  |
| C195 | Bit readers and byte getters agree | proved | `C195_bit_and_byte_reads`, `C195_fields_read_back` |  |
| C196 | Reading on is like starting later | proved | `C196_start_later`, `C196_near_the_end_refuted` |  |
| C197 | A loop over codewords ends | partial | `C197_loop_ends_refuted`, `C197_loop_reads`, `C197_loop_ends_partial`, `C197_whole_blocks_partial`, `C197_complete_endless`, `C197_zeros_endless`, `C197_release_endless`, `C197_soon_or_never` | false as stated if a codeword consists of zeros and the length is no multiple of 8; proved when either is excluded, and endless for every complete code otherwise |
| C198 | Counting equal bits ends | partial | `C198_run_ends_refuted`, `C198_zeros_endless`, `C198_new_reader`, `C198_ones_end_partial`, `C198_soon_or_never`, `C198_run_exact`, `C198_guarded_same`, `C198_guarded_blocks` | false as stated: reads past the end give zeros, so that counting zeros need not end; ones always end, runs that end 8 bytes before the end are counted exactly, and for a new reader the result is given for every buffer |

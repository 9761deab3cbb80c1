# Formal model of shiguredo/cpp-mp4 in Coq — design

Written before the proofs and kept up to date.  The properties are in `properties.jsonl`, the theorems proved for each in
`MANIFEST.json`, the seeded-bug experiments in `seeded/LOG.jsonl`.

## Modelling conventions

* A C++ function that can fail returns `outcome A := Ok a | Throw e | UB`.  `UB` is undefined behaviour of the C++
  program (null dereference, out-of-bounds access, use of an indeterminate value that decides anything, over-wide
  shift).  A theorem that concludes `Ok` therefore also says that none of these happens.
* Integers are mathematical `Z`.  Every C++ narrowing cast, unsigned subtraction, `<<` or `+=` whose wrap-around is
  observable is written as an explicit `mod 2^k` (`to_u`, `u64`, …).  Nothing is assumed about ranges: each theorem that
  needs a range has it as a premise (`box_wf`, `fits_u`, `bytes`, …).
* Octets are `Z` in `[0,256)`; streams are `list Z` plus a position (`ostream` with seekp/tellp/write, `istream` as the
  whole contents plus a position).
* The bit writer and reader are state machines with exactly the fields of `bitio::Writer` / `bitio::Reader`.
* Loops without an obvious bound (reader, layout of a tree, faststart layout loop, Annex-B scanner) take fuel and return
  `option`; the theorems show that fuel always suffices (C19, C16, C30, C36) or that more fuel changes nothing.
* Every definition of a model file carries the file and lines it models; simplifications are stated there.

## Files

| kind | files |
|---|---|
| model (no proofs) | `Base`, `BitIO`, `Boxes`, `Box`, `Time`, `Print`, `BoxTree`, `H264`, `Track`, `Writers`, `Float`, `Device`, `Memory`, `StringStream`, `Muxer`, `WriterMemory`, `Resource`, `Reread`, `Cost`, `ReadErrors`, `Alloc`, `TmpFile` |
| specification (no code) | `BitSpec`, `WireFormat`, `BoxSpec`, `DescriptorSpec`, `RegistrySpec`, `TimeSpec`, `PrintSpec`, `DumpSpec`, `TreeSpec`, `AnnexBSpec`, `MovieSpec`, `DurationSpec`, `FailureSpec`, `CallSpec`, `MuxerSpec`, `CompareSpec`, `IndependenceSpec`, `ChunkSpec`, `WeightSpec`, `ConcatSpec`, `ScanSpec`, `OverwriteSpec`, `CostSpec`, `SaveSpec`, `StructureSpec`, `AllocSpec`, `SeekSpec`, `ExactSpec`, `TilingSpec`, `TextSpec` |
| model validation | `Conformance` (the project's own 106 box test vectors, by computation), `UnitVectors` (all its other unit tests: box types, headers, box tree, bit I/O, endian, time, track tables, NAL units) |
| proofs | `BitFacts`, `BitIOProofs`, `BitLemmas`, `BoxTac`, `BoxWrite`, `BoxRead`, `BoxIO`, `BoxSize`, `BoxSafe`, `BoxInv`, `BoxExact`, `BoxLemmas`, `RegistryProofs`, `TimeProofs`, `PrintProofs`, `PrintInj`, `TreeProofs`, `TreeLayout`, `TreeRead`, `TreePrint`, `ReaderTotal`, `ReaderTiling`, `TreeLemmas`, `ReaderPrint`, `DumpProofs`, `Rewrite`, `H264Proofs`, `TrackProofs`, `TrakProofs`, `SessionProofs`, `MovieShape`, `Completion`, `MovieSize`, `FileProofs`, `SimpleFile`, `FaststartFile`, `TrackLemmas`, `FileLemmas`, `RoundTrip`, `FloatProofs`, `DurationProofs`, `Truncation`, `DeviceProofs`, `OpenEnd`, `Interrupt`, `InterruptLemmas`, `Refusal`, `Kept`, `Begun`, `MemoryProofs`, `Appending`, `CallProofs`, `MuxerProofs`, `WriterMemoryProofs`, `WriterLife`, `FinishOrder`, `Compare`, `Independence`, `Chunks`, `Weight`, `Concat`, `ScanProofs`, `Overwrite`, `CostProofs`, `ReadErrorsProofs`, `AllocProofs`, `AllocExact`, `ExactProofs`, `TilingProofs`, `TmpFileProofs`, `TextProofs`, `TextSound`, `TextUnique` |
| theorems | `PropBits` (C01–C08), `PropBoxes` (C09–C13, C22, C37, C39, C42, C43, C49), `PropTree` (C14–C21, C44, C48, C49), `PropTrack` (C23–C27, C34, C40, C41), `PropFile` (C28–C34, C40, C45, C46, C50), `PropRoundTrip` (C47), `PropH264` (C35, C36), `PropTime` (C38), `PropPrint` (C51–C53), `PropDuration` (C54, C55), `PropFailure` (C56–C59), `PropMemory` (C60), `PropStream` (C61), `PropCalls` (C62), `PropMuxer` (C63), `PropWriterMemory` (C64), `PropResource` (C65; with its specification), `PropOrder` (C66), `PropCompare` (C67), `PropIndependence` (C68), `PropChunks` (C69), `PropWeight` (C70), `PropConcat` (C71), `PropScan` (C72), `PropOverwrite` (C73), `PropReread` (C74), `PropCost` (C75), `PropStructure` (C76), `PropReadErrors` (C77), `PropSave` (C78), `PropAlloc` (C79), `PropSeek` (C80), `PropExact` (C81), `PropTiling` (C82), `PropTmpFile` (C83), `PropText` (C84) |
| counterexamples | `Findings`: `Cnn_…_refuted`, one for each place where a stronger reading of a property is false of the code |

The `Prop*.v` files contain the statements, each closed by a lemma, followed by `Print Assumptions` and an example that
meets the hypotheses (`Cnn_satisfiable`, `Cnn_case`, the `session_*` examples of `PropFile`).

## What is modelled, and how each property is proved

* **C01–C08** (`src/bitio/*.cpp`, `src/endian/endian.cpp`): the writer and reader states are abstracted to lists of bits;
  specification `be n v` (n-bit big-endian two's complement); induction on bit lists.
* **C09–C12, C39, C42, C49** (all of `src/box/*.cpp`): per class the wire format is a list of fields (`WireFormat.v`, from
  the ISO documents, not from the code).  `writeData` emits exactly the bits of the list, `getDataSize` is its length,
  `readData` inverts it and reports its length; the domain is exact (C12: iff).  C42/C49: for *arbitrary* payload octets,
  the reader never reaches `UB` (one listed exception) and what it returns writes back to the same octets.
* **C13, C22, C37, C43** flags, types, registry, languages: bit arithmetic and finite tables against independent tables.
* **C14–C17** (`src/box_header.cpp`, `src/box_info.cpp`): structural induction over trees; specification `serialize`.
* **C18–C21, C44, C48** (`src/reader/reader.cpp`): for every input: termination, tiling, agreement with the file; inverse
  of `serialize`.
* **C23–C27, C40, C41** (`src/track/*.cpp`): specification by expansion of the run-length tables (`MovieSpec.v`).
* **C28–C34, C45, C46, C47, C50** (`src/writer/*.cpp`): a session is any list of calls (`Writers.op`) on a writer; the
  invariant of the session is proved by induction on the history, then the finished stream is described octet by octet
  and resolved by an independent player (`MovieSpec.resolve`: stsc/stsz/stco/co64), and read back by the library's reader.
* **C35, C36** (`src/track/h264.cpp`): the scanner with bounds-checked reads; specification: Annex B grammar.
* **C38** (`src/time/time.cpp`): calendar specified by counting days; **C51** when it fails.
* **C51–C53** (`toString` of every class): outcome of printing; the dump as lines in file order; injectivity by parsing
  the texts from the left.
* **C54, C55** (floating point): Flocq's IEEE 754 binary32/binary64; the standard error bounds of rounding to nearest, composed
  with C46/C47 for finished files.  `Track_new` and the writers of the model take the products (theorems about them hold for
  arbitrary ones); `Float.duration_in` is the product and `DurationSpec.lasting` connects the two.
* **C56** (truncation): induction over the boxes of a file; the first box that is cut makes `BoxHeader::read` or the payload parser
  raise (`Truncation.v`), the boxes before it read as before (C18/C44).
* **C57**, **C59** (killed programs, refused output): `Device.v` gives the requests each call makes of the streams (seek, tested
  write, untested copy through an ostreambuf_iterator) and runs them against an arbitrary fate of every octet; with every
  octet stored this is the session of `Writers.v`.  Induction over the requests and the calls;
  for C59 (`Refusal.v`): octets missing before the end of a box make the tested write of its payload fail; what remains of
  the media data (`Kept.v`) is an invariant of all requests after the recording: none of them touches the octets of the data.
* **C58** (size 0): `readBoxes` and `BoxHeader::read` with the end of the file in place of the size.
* **C60** (objects): `Memory.v` is `readBox` once more, with a heap of headers, boxes and tree nodes and the destructors; a tree
  owns a set of addresses (`MemoryProofs.v`), deleting it deletes exactly these, and induction over the reader shows that the
  trees it has entered own everything allocated so far; it agrees with the reader of `BoxTree.v`.
* **C61** (streams): the requests of `Device.v` against an arbitrary predicate telling which seekp succeed; the requests of every
  FaststartWriter call flow from the end of the output (`Interrupt.v`).
* **C62** (how calls end): result of every call against `CallSpec.v` by induction over the calls, with the session invariant of
  `SessionProofs.v`.
* **C63** (mp4-muxer): the calls of each subcommand as a session of `Writers.v`; it is a recording (chunks are ended before the
  other track's samples), its samples are the resources in order, what is stored alternates turn by turn; then C47, C62 and C81.
* **C64** (objects of the writers): `WriterMemory.v` is the writers once more, over the heap of `Memory.v`: every `new` and `delete`, the pointers
  `m_moov_box_info` and `m_mvhd_box`, and the existence of the intermediate file; a stream may refuse at any use. Invariant: the heap holds the
  tree of moov boxes of `Writers.v` (each object once) and objects lost by exceptions; each call refines the call of `Writers.v`.
* **C65** (resources): `hex2bin` and `load_resources_from_csv` on the cells of the file; induction over the lines and digits; then C63.
* **C66** (order of the finishing calls): an invariant on the stream (which of the header, the movie box and the media data are already in place) preserved by each finishing call, by induction over the list of calls.
* **C67** (same movie): a simulation between the two sessions (tracks equal but for chunk offsets, moved by the constant), by induction over the calls; then the two finished files of C28/C29.
* **C68** (tracks independent): by induction over the calls, every track of a session equals, up to the positions of its chunks, the track obtained by replaying only its own calls; the trak boxes made of two tracks equal up to that are equal except for the chunk tables.
* **C69** (chunks): the replay of C68 counts the samples of each chunk; together with the groups of consecutive samples of C28/C29 the division is determined, and the lemmas of C23–C25 give the tables.
* **C70** (size of what was parsed): a resource logic for readers (`spends m s`: a reader that returns `a` consumed at least `s a` bits) applied to every `readData`; induction over the reader as in C44 gives the bound for files.
* **C71** (concatenation): two simulations of the reader by induction on its recursion: on the first file, what follows is not looked at (closed boxes only); on the second, every position is shifted; the top-level loop is cut where the first file ends, which C48 says is exactly its length.
* **C72** (H.264 buffers of any content): the scanner's loop invariant (no start code seen since the header) gives the decomposition of the buffer; a separate argument on lists shows that the specification admits only one decomposition.
* **C73** (a stream that was not empty): the requests a call makes (Device.v) do not depend on what the stream holds (`step_over`), so both runs make the same ones; each group of requests is one contiguous write, and the writes together cover the file. For arbitrary calls, an invariant on each write.
* **C74** (read() called again): the state of the reader between calls (position of the stream, list of boxes). From C14's tiling, the first call leaves the stream at its end, where reading a header raises and does not move it: induction on the number of calls. After an exception (C74_later) the stream stands anywhere behind the beginning of the call, or has failed: by the tiling no loop that starts there can end.
* **C75** (what reading costs): the reader with counters (erasing them gives the reader). Any file: every header read moves the stream on by at least 8 octets and the box ends inside the file; induction on the fuel with the octets left as potential. Boxes found: the counters are functions of the tree; a tree whose boxes fill each other (C48, C16) has at most height times size octets. Writers: the height of the trees of C47. Reached: induction on the nesting.
* **C76** (structure of finished files): the trees of C28–C31, whose trak boxes are those built for the tracks of the session (SessionProofs, TrackLemmas); their types, versions and flags by cases on the codec.
* **C77** (files that cannot be read): the reader with a predicate telling which octets cannot be read; it ends with std::runtime_error or as the reader without errors does. If it found boxes, the top-level boxes cover the file: each leaves the stream at or after its end, and their sizes add up to the file only when there was no gap; their headers and contents were read, so nothing in the file was bad.
* **C78** (saving boxes): a user's loop over `adjustOffsetAndSize` and `write` (`SaveSpec.v`); by induction over the boxes with the layout and write lemmas of `TreeLayout.v`; two trees with the same contents laid out at the same place are equal, so reading back gives the very same boxes; finished files by the trees of `RoundTrip.v`.
* **C79** (storage asked for): `Alloc.v` repeats every `readData` with a log of the arguments of `std::vector::resize`; erasing the log gives the reader back (`AllocProofs.er_box`, `reader_erase`). Upper bounds class by class (each logged count is paid for by octets read, or is one announced count below 2^32 and the reader fails); exactness by the lengths of the vectors read; files by induction over the calls of `readBox`.
* **C80** (seeking): a player's lookup in the tables (`SeekSpec.v`) against the recorded timestamps and key frames, from C47's description of the tables by induction over the samples; the computed durations add up because timestamps do not decrease.
* **C81** (complete contents): `ExactSpec.v` computes the trees of the file from the calls; `ExactProofs.v` shows that the trak box of a finished track is that tree (the loops for the tables are run lengths, chunk offsets the first positions of C69's chunks), and the sessions of C28/C29 and the wire format of C47 give the octets; the shortest file by an invariant of the layout loop (`FaststartFile.v`).
* **C82** (tiling): `TilingSpec.v` gives the owner of each octet stored and says what a division of the media data into samples is; `TilingProofs.v` shows it of the positions of the samples by induction over what was stored, and of the tables by the lemma for finished trak boxes (C28).
* **C83** (reads of the intermediate file): `TmpFile.v` models fread over reads that divide or fail and the loop of copyMdatData; `TmpFileProofs.v` shows by induction over the reads that what is copied and what is left make up the data; with the writer before the copy (C43) this gives the finished file.
* **C84** (text of boxes): `TextSpec.v` gives, independently of `Print.v`, a table of the fields of every class (name, order, condition, notation) and a relation between values and texts; `TextProofs.v` shows the characters of every class equal to the table's, `TextSound.v` the line with its header, `TextUnique.v` that the relation allows no other text; with C52 this describes the whole dump.

Nothing in the list is dismissed as inexpressible.

## Not modelled

* A duration whose conversion is undefined behaviour (NaN, infinite, negative, too long: C54_undefined) is reported by
  `duration_in`; sessions are only modelled for durations for which it is defined.  `FLT_EVAL_METHOD` = 0 and rounding to
  nearest are assumed.
* I/O errors when seeking, closing or removing files other than the intermediate one (that: `TmpFile.v`), a file that changes while it is read (errors when reading: `ReadErrors.v`, as
  libstdc++'s file streams report them); failing writes are modelled in `Device.v` (stored is what the
  stream accepted, in order; data that a buffer loses in a crash are an earlier crash point), for programs that stop at the
  first exception.  Failure of allocation; fwrite to the temporary file of FaststartWriter that fails or writes less (its return
  value: `Device.v`), and anybody else who opens it, or removes it while it is open; spdlog output (its arguments are evaluated), exceptions thrown by
  iostreams.
* Of the command line programs (`mp4-tool dump` is in `ReadErrors.v`): the parsing of options (CLI11), logging, and the reading of resources from CSV files
  (rapidcsv; what `example/resource` does with the cells is in `Resource.v`); the sessions of `example/mp4-muxer.cpp` are in `Muxer.v`.
* `new` and `vector::resize` that fail (std::bad_alloc: `readData` resizes a vector to the count announced before it reads the elements; how much is asked for is C79, what the program does when it is refused is not modelled); `VersionAndFlags` helpers not used by the library.
* Where exactly an exception of read() leaves the stream (C74 holds for every position that is not before the beginning of the call).
* Sums of sizes in `std::size_t`/`0UL` accumulators are unbounded in the model (an overflow needs more than 2^64 octets in
  memory); 32-bit sums (descriptors) are modular.
* {fmt} and the C library: `fmt` replacement fields, `gmtime_r` and `strftime` are modelled by the definitions in the first
  sections of `Print.v` and `Time.v` (`gmtime_r` fails exactly when the year does not fit `int`).
* Operand evaluation order in `f() + g()` and of function arguments is unspecified in C++; the model fixes left to right.
* `BoxPath` (`m_path`) is represented by the depth of a box (only its length is observable).
* `Tfra`'s size members above 3 (cannot be represented; `tfra_wf` excludes them).

## Trusted base

* Coq 8.16.1's kernel (including `vm_compute`), the standard library.  `Print Assumptions` of every theorem
  in `Prop*.v` prints "Closed under the global context", except for the theorems of `PropDuration.v` (C54, C55) `PropMuxer.v` (C63) and C65_program, which are
  stated with real numbers or use Flocq's floating point numbers and depend on the axioms of the standard library's real numbers and nothing else:
  `ClassicalDedekindReals.sig_not_dec`, `ClassicalDedekindReals.sig_forall_dec`,
  `FunctionalExtensionality.functional_extensionality_dep`, `Classical_Prop.classic`.  They also use the definitions and
  (axiom-free) proofs of Flocq 4.
  (`coqchk` lists seven constants of the module type instance
  `Coq.ssr.ssrunder.Under_rel`; they are sealed definitions of the standard library loaded through `ZifyBool`/ssreflect and
  no theorem depends on them.)  No functor, module type, `Admitted`, or switched-off check.
* The correspondence of the model files with /repo, which is by reading; `Conformance.v` and `UnitVectors.v` check it on all unit tests of
  /repo/test (octets, sizes and texts), and the seeded bugs show that the theorems notice deviations.
  `validation/muxer.sh` extracts the model of mp4-muxer to OCaml and runs the nine sessions of /repo/test/integration: the
  files it writes have exactly the SHA-224 sums recorded in /repo/test/integration/output/check (clock: midnight JST of
  2020-12-01), results in `validation/muxer.out`.  (Extraction and OCaml are not part of the trusted base of the theorems.)
* The specification files listed above: they are what the theorems mean.

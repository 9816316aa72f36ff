# Formal model of squizzling/osmindex in Rocq (Coq 8.16.1)

## 1. Modelling conventions

* Go integers are `Z`; every arithmetic operation whose Go counterpart can wrap
  is wrapped explicitly (`u64`, `s64`, `u32`, `s32`, `u8` in `Base.v`). `int` is
  64 bit (the project mmaps 50 GB files, it only runs on 64-bit machines).
* A Go function that can panic returns `res A = Ok a | Panic p | Diverge`.
  Index/slice bounds checks, nil dereference, division by zero and explicit
  `panic(...)` calls are all modelled.
* A byte slice that is *read* is `slice = {vis; ext}`: the bytes up to `len` and
  the bytes between `len` and `cap`.  Go's `b[i:j]` is bounded by **cap**, not by
  len; `b[i]` by len.  That difference is observable (C10, C12), so it is modelled.
* A byte slice that is *appended to* is a list; append aliasing is not modelled
  (every writer threads the buffer linearly).
* Loops are recursion on explicit fuel; running out of fuel is `Diverge`, and for
  each loop we prove either that the fuel is never exhausted or (message loops)
  that exhausting it means the Go loop runs forever.
* Go maps are association lists in *iteration order*; theorems quantify over
  the order.
* Goroutines + unbuffered channels are a small-step transition system; theorems
  quantify over all runs.
* External code (zlib, OS read/write chunking, sync.Pool choices) is an oracle
  over which theorems quantify universally.

## 2. Files (see `rocq/theories`)

`*Model.v`-style files hold definitions only, each citing file:lines of /repo;
`*Spec.v` hold the independent specifications; `*Proofs.v` lemmas; `P_*.v`
hold the property theorems only, each closed by `exact`, with
`Print Assumptions` and non-vacuity `Example`s.

## 3. Plan per property

| id | modelled | how proved |
|----|----------|------------|
| C01-C03 | EncodeVarInt/DecodeVarInt literally (10-way switch, 10 nested reads) | against an independent LEB128 spec; case analysis over the 10 lengths |
| C04 | zigzag with 64-bit shifts/xor | bitwise lemmas, arithmetic |
| C05-C08 | scalar, packed, delta, zero-terminated, length-prefixed codecs | induction on the list, cursor lemmas with arbitrary prefix/suffix |
| C09 | Embed* with reserve + back-patch | list update lemmas |
| C10 | slices with capacity (`b[i:j]` checked against the capacity) | false as stated (`C10_nested_overread_refuted`). `CpSpec` gives readers isolated to the extent of each nested message; `CpThms` proves by simulation that the code agrees with them both ways except where a message overruns its own extent with its last field |
| C11 | SkipBytes with negative lengths | expected false: refutation by pigeonhole-free divergence proof; positive part proved where no length is negative; exact (LpSpec/LpThms): a reader fails to return iff following its items it comes back to a place already read, or reaches a nested message whose reader fails to return (pigeonhole on positions) |
| C12 | same | monotonicity of every reader in `ext` |
| C13-C15,C17-C21 | all Read*/Write of internal/t | field-by-field consumption lemmas |
| C16 | same | false as stated: witness way (`C16_way_too_large_refuted`); `C16_exact` gives the exact condition on the bytes needed (`SzSpec`), `C16_any_refs` the number of refs that is always safe |
| C22 | GetKeyVals with its cache as state | invariant over call histories |
| C23-C25 | stringTableBuilder; sort as any sorted permutation | uniqueness of sorted permutation of a strict total order |
| C26-C29 | To*/MakePrimitiveBlock | composition; C27 false when "" is added (uint32 wrap of MaxUint32); `C27/C29/C31_nodes_exact` say exactly when nodes survive: iff no node tag's key is the string the table puts first (`first_key_free`, HLSpec) |
| C30-C33 | keepTag, tagfilter worker | computation + induction |
| C34,C35 | processFileWork framing loop, writers | induction on blobs / strong induction on bytes |
| C36 | reorder | invariant over arrivals |
| C37-C40 | whole pipeline as transition system | inductive invariant, progress, decreasing measure |
| C41-C43 | morton table, Encode, Decode, DecodeLocation | bit-level extensionality; C43 expected false (doc says shift, code does not); exactly for latitudes 0 and -1 units (XcThms.v) |
| C44,C55 | packing | arithmetic; boundary refutations; the exact set of arguments (XcThms.v) |
| C45,C51 | findNodeActual | binary search invariant |
| C46,C47,C59,C57 | indexers + files + lookup, bytes included | composition; C47 expected false if a block starts with id 0 or 1; for C47 NfThms.v proves that these two ids are the only reason (C47_exact: every node found at its own location iff no node 0 and no node 1 in the input): a run of first nodes lost before a range begins cannot be covered by a later range |
| C48,C58 | SubIndex | prefix sums; refutations for remainder / panics; exactly which pass counts divide an index: XsThms |
| C49,C50,C60 | sequences of file writes, crash = prefix | computation on header bytes |
| C52-C54 | rewriter worker, driver | induction; C53 exactly (which refs a pass count loses): XwThms; names of the pass files: XnThms; exactly when the rewriter ends (C54): XsThms |
| C61-C63 | relindex init + rewrite | parser/printer induction; C62 exactly (which ways a pass count loses): XrThms; C63 exactly: XrThms |
| C64-C70 | pool, zlib loop, decompress, iio | state machine invariants with oracles |
| C71,C72 | CAS loop interleavings, merges | invariants |
| C73,C74 | tracker + refresh | invariants |
| C75 | MarkupAsProgress with a model of `%` markup | string induction; expected false when unescaped; exactly when, by the length of what is shown (XcThms.v) |

| C76 | writer of the way index with a cancellable copy | as C50; false of the code, never-wrong part proved |
| C77 | dumpwayindex's loop over the index | induction |
| C78 | entityfind's block scan; merge of the workers' outputs | induction, interleavings |
| C79-C81 | pipeline runs composed with the tools (Cx): schedule, cancellation, file writes, re-reading the output | pipeline invariant (C39) + per-block results; C79 for every number of passes: XyThms (the stages of CxThms, with what the passes make of the first blobs alone) |
| C82, C83 | all Read*/Write of internal/t against an independent protobuf reading of the two .proto files (WsSpec.v) | reading = fold over the fields of the message; writers by exhibiting the fields |
| C84, C85, C86 | the models of C34, C47, C53, C54, C57, C61 composed, with files described by the schema alone (EeSpec.v: frames, blobs, blocks, elements) | the readers see the schema's content (WsRead); a rewritten block recombines with the sections kept as bytes (EeProofs); sizes of what is written (EeFin); composition (EeThms); C84 for every number of passes: XeThms; C85 and the whole chain (C86) for every number of passes and memory limit: XsThms |
| C87 | the decompressor in the pipeline model (C37, C66, C80), its input and output described by the schema alone (ChSpec.v) | uniqueness of frames and contents, the prefix theorem for completed runs (ChProofs, ChThms); files with an empty content excluded (C66_empty_payload_refuted), hence `_partial`; exactly, with empty contents: XhThms |
| C88 | the tag filter in the pipeline model (C31, C81), its input and output described by the schema and by the elements (nodes with coordinates and tags, ways, relations) that a block holds (ChSpec.v: `elements_are`, `filtered`, `written_as`) | reading a block gives the elements the schema assigns (FlProofs: read_entities), the block built holds the filtered ones (ways_built, relations_built, nodes_built), the prefix theorem for completed runs; node tags are right exactly where no node has the table's first string as a key (C27), hence an `_exact` theorem, and `_partial` for files without empty strings |
| C89 | C88 and the tool chain of C85 together (FcThms.v) | ways, members of relations and places of nodes computed from the elements of either file; injectivity of the unsigned representation on int64 refs; then the chain of C85 with the filtered file in place of the rewritten one; `_partial` for the limits C85 has; for every number of passes of the rewriter: XfThms |
| C90 | the states of the rewriter's loop and of the pipeline at any step (KlModel.v: `rw_main_killed`), each write possibly partial; sequences of such runs on the files they leave (KlSpec.v: `killed_often`) | which names a run writes (induction over passes); the loop reads only names it has written before or the input; a prefix of a file of frames is a file of frames or not readable (is_file_prefix); what the writer got at any step is what it gets in a run cancelled there (C79); the exact form, for any number of passes and any memory limit: XzThms |
| C91 | the pipeline at any step and a prefix of what its writer wrote (K2Thms.v) | a readable prefix of the output is what a run that is cancelled at some block writes; then C81, C87, C88; the decompression exactly, empty payloads included: XgThms |
| C92 | the states of the relation indexer's loop (RkModel.v), sequences of such runs (RkSpec.v) | as C90; the output has no frames, so a first part of it cannot be told from a whole one |
| C93 | float64 as IEEE binary64 with rounding to nearest even (Flocq's BinarySingleNaN), the loop that looks for the slot, the time stamps as arbitrary words (TmModel.v) | bounds of the quotients in the reals: after n divisions by 9/8 or more at most B(198-n), with B representable; refuted for factors in [0,1] (the loop never ends) and for 17/16 (slot beyond the table) |
| C94 | the lookups with the counter each adds to; workers' atomic additions as an arbitrary interleaving (TmModel.v, TmSpec.v) | the branch taken related to the linear search of C45; sums over interleavings |
| C95 | NiModel/IoModel: every call of the run through an arbitrary operating system (write lengths, failures); a process that is killed between two calls is one whose calls all fail from there | the run's end state is one of: file without a header, header with count 0 (the file is then read as all locations), complete index part with a prefix of the locations; each analysed with C45's search; refuted for a header write cut within its second word |
| C96 | the same for WiModel/IoModel | the same; refuted for a header write cut after its first word |
| C97 | processFileWork as a step function on the record (state, at, max), one store per step; a look of the display as three reads at moments i <= j <= k of a run (PgModel.v, PgSpec.v).  The plain (not atomic) field max is read as a word | invariant over the steps; for files of frames, the position relative to the frames sent |
| C98 | the bar's length with float64 as in C93 (PgModel.v) | monotonicity of rounding, absolute and relative error bounds in the reals; pass to pass refuted by one character |
| C99 | cmd/dumpnodeindex as a whole program on the bytes of a file: the list of lines it prints (DuModel.v; of the two numbers printed with %f the line has the integers before the division by 10^7); what should be printed is given from ranges and locations (DuSpec.v) | induction over positions and elements with C45, C48; end to end with the files of C47 and the coordinates of C42; that parts cover the index is refuted (C48) and proved exactly when C48 says so |
| C100 | cmd/dumpwayindex likewise (DuModel.v) | as C99, with C57, C58; what a part prints is stated exactly, and is not the part: refuted |
| C101 | option records, Validate and parseArgs (DuModel.v); go-flags' reading of the command line is the abstract value `parsed` | case analysis for the rules; the exact condition under which an accepted dumpnodeindex line does not panic; accepted lines that panic: refuted.  What the other tools' unchecked options (workers, memory, passes, alignment, timing) do is in C37, C16, C62, C55, C93; exactly which accepted command lines of the node dump are carried out: XbThms |
| C102 | each worker with its record: the atomic stores it makes and what it is doing, in order (SlModel.v); a widget's update as a program of atomic loads; a drawing reads each load at any moment, later loads later (`look`, SlSpec.v) | invariant along the deeds (`tracks`, SlProofs.v) by induction on the program; the workers with records erase to the workers of the other properties.  Missing for the index tools: blocks passed on are shown as waiting (refuted) |
| C103 | rewriter worker with its record (SlModel.v), line with or without a view | a Hoare logic for deeds (SrProofs.v); same-block theorem; the race across blocks refuted |
| C104 | tag filter worker with its record and counters (SlModel.v) | invariant along the deeds relating the counters to the nodes of the blocks begun; the stale number while a header is sent refuted |
| C105 | the writers of decompress, relindex init pass, rewritenodes and tagfilter over files and an arbitrary operating system (SwModel.v) | an `adds` relation between states (what one piece adds to the file, when it panics), composed over the loop; equality with the pure writers of FrModel/RiModel |
| C106 | the same writers with their records and the lines drawn from these | invariants along the deeds as in C102-C104; "dropped 1/0 blocks" refutes the reading of the tagfilter line as dropped out of received (the second number is the number of the last block written) |
| C107 | the writers of the node and way index with their records, files and an arbitrary operating system (SwModel.v; specification SySpec.v) | the deeds of both writers are of one grammar (SyProofs.v), over which the invariants relating record and work go by induction; erasure to NiModel/WiModel; the messages of the workers meet the hypothesis on totals unless a block begins with node 0 or 1; refuted: "block n" shows the number of entries, and 125% for an input that begins with node 1 |
| C108 | percentages: Go's float64 division and multiplication (Flocq), and the rounding of %2.01f to tenths (SwModel.v: percent, percent_text; specification PtSpec.v: tenths_of) | round_tenths is ZnearestE of ten times the value; error bounds and monotonicity of rounding; refuted: 100.0 before the end, NaN% when nothing is to be copied |
| C109 | the widget of the input file (PtModel.v: process_line) on the record of C97, and how a line is drawn (on_screen, with MarkupAsProgress of C75/C98 and the markup of tcell as specified in TrSpec.v); the pass line of rewritenodes | invariants over the steps of the run (PgModel.v), C97, C98, C108; exact: what is drawn at the end of the file; refuted: the percent sign is lost there, in every run over a non-empty file that is not cancelled |
| C110 | the user interface (UiModel.v) as a transition system: the calling goroutine, the ticking goroutine, goroutines that post one event each, a queue of events of any capacity, the event loop, the keyboard. The event loop, the queue, PostEventWait, PostFunc, Quit, Wait and BoxLayout belong to tcell v1.4.0, whose source is not in the sandbox: they are modelled from their documentation (PostFunc, Quit and Refresh post from goroutines of their own), and this is part of the trusted base of C110 | invariant over the phases of Stop, a measure for termination; permutation of the posted functions; refuted under this model: two calls of ReplaceWidgets may take effect the other way round |
| C111 | `TModel` writers; sizes defined in `SzSpec` from the numbers alone (`vsize` = log2/7+1). | `SzThms`: each writer appends a known byte list iff it fits (`TMsg`, `TMsg2`); its length is computed, the nested limits are shown redundant or kept, and no writer diverges. |
| C112 | `rw_count`, `SubIndex` (NiModel, RwModel) | arithmetic on the cuts of the running totals (XmThms); that the last range of a pass can exceed the limit: refuted |

## 4. Trusted base

* Coq's kernel (8.16.1), including `vm_compute`.
* The model's faithfulness to /repo. The model was written by reading the code; nothing
  connects the two mechanically. Each definition cites the lines it models.
* The specifications (`*Spec.v` and the statements in `P_*.v`).
* `Print Assumptions` after each theorem in `P_*.v`: every one but those of C93 prints
  "Closed under the global context", i.e. no axioms at all. The theorems of C93 are about
  float64 and use the standard library's real numbers (in the proofs only, through Flocq);
  Print Assumptions lists for them `ClassicalDedekindReals.sig_not_dec`,
  `ClassicalDedekindReals.sig_forall_dec`, `FunctionalExtensionality.functional_extensionality_dep`
  and `Classical_Prop.classic`, all of the standard library; Flocq adds no axioms. (The library
  files that are loaded also declare `Coq.ssr.ssrunder.Under_rel.*` and, as fields of sealed modules with
  definitions, `Coq.Reals.Rdefinitions.RbaseSymbolsImpl.*` and `RinvImpl.*`; Print Assumptions lists none of them.)
* No axioms, no functors, no plugins, no `Admitted`, no kernel checks switched off.

## 5. What is modelled

| package | modelled | not modelled |
|---|---|---|
| internal/pb | all functions used by the tools: varint, 32/64-bit scalars, packed, delta, buffers, embed | - |
| internal/t | all readers and writers, string table builder, To*/Make* conversions, GetRawData, GetKeyVals | buffer pooling inside GetRawData is modelled in C64/C65 only |
| internal/pbf | processFileWork, reorder, worker and writer loops (transition system), the progress record | - |
| internal/morton, imath | all | - |
| internal/iio, iunsafe | all | O_DIRECT style OS behaviour; unsafe casts are modelled by little-endian byte lists |
| internal/pool | Borrow/Return over sync.Pool as an arbitrary-choice multiset | GC emptying the pool is one of the choices |
| internal/nodeindex, wayindex | index formats, sub-indexes, lookups, their counters and timing | mmap is an array read; page faults are not modelled; PrintStats' formatting; gotsc (its readings are arbitrary words) |
| internal/tracker | WorkerTracker and the widget's refresh | - |
| internal/ui | format.go (MarkupAsProgress), the lines of the process-state and pass-progress widgets, ui.go (goroutines, keys, ReplaceWidgets, Stop) on a model of tcell's event loop | the drawing on the terminal; debugui.go does nothing; SetView |
| cmd/nodeindex, wayindex, rewritenodes, relindex, tagfilter, decompress | worker, writer, driver, what args.go checks, state_*.go and widget_*.go (the records and the lines) | go-flags; where on the screen a line stands |
| cmd/entitycount, blockcount, entityfind, dumpnodeindex, dumpwayindex | the per-block code, the merge of the workers and the output, what args.go checks | go-flags; printing of floats |
| internal/args, system | SystemOpts.Validate, IsHelp as a case of `parsed` | go-flags, profiling |

Runs that end at any moment (KlModel, RkModel): the run ends between two file operations or within a
write, of which then a first part is in the file; writes that were made are in the file in the order they
were made (no loss of cached writes when the machine itself fails). KlModel covers runs whose inputs can be read to the
end; in RkModel a pass that panics may leave any content in the file it writes.

Files are functions from names to byte lists; a crash or cancellation stops a sequence of
writes at any point. File-system errors (other than a missing or empty file to map) are not
modelled. Memory exhaustion is not modelled.

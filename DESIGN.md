# Design: a machine-checked model of calibrationReader

`/repo` is asap2Go/calibrationReader (Go).  This directory contains a model of
that code in Rocq/Coq 8.16.1 (`rocq/theories`), properties a user relies on
(`properties.jsonl`), and theorems about the model (`MANIFEST.json` maps
properties to theorem names).  The code itself was read as text; it was neither
built nor run.

## 1. Trusted base

* the Coq kernel (`coqc`, re-checkable with `coqchk`);
* the axioms `Print Assumptions` lists under each property theorem (every
  `*Props.v` file prints them; the goal is "Closed under the global context"
  everywhere; section 6 lists the exceptions, if any);
* the faithfulness of the model: each definition in a `*Model.v` file cites the
  Go file and lines it transcribes and says what it simplifies;
* the Go facts listed in section 3.

## 2. Layout

| file | content |
|------|---------|
| `GoBase.v`, `GoStrings.v` | outcomes (`Ok`/`Err`/`Panic`), byte strings, hex digits, Go slices, chunking by `numProc`, fixed width arithmetic, the functions of `strings` that are used |
| `Conc*.v` | small-step machines for the goroutine patterns used by the hex readers and the tokenizer: per-worker channels drained in order, a shared error channel with a wait group |
| `Fan*.v` | small-step machine for the module parser: workers, 27 shared channels with one collector each, a closing goroutine |
| `Ihex*.v`, `Srec*.v`, `HexSpec*.v`, `Count*.v`, `*Any*.v` | packages `ihex32`, `srec19`; independent encoders |
| `Lock*.v` | `addOffsets` in single accesses, with its mutexes (C83) |
| `Calib*.v` | `ReadCalibration`, `readA2L`, `readHex` |
| `Mem*.v` | `getBytes`, `getNextAlignedAddress`, `convertByteSliceToDatatype`, `convertStringToUint32Address`, component readers |
| `Float*.v`, `Compu*.v` | IEEE binary64 (`Coq.Floats.SpecFloat`, computable, axiom free); `compu_methods.go` |
| `Look*.v` | `record_manager.go`: lookups by name |
| `Tok*.v` | `a2l/token_generator.go` |
| `A2lText*.v` | `cleanBytesString`: UTF-8 decoding, escape removal, trimming (C62) |
| `StrconvModel.v` | `strconv.ParseFloat`, and what the functions of `strconv` return with an error |
| `A2lIR.v` | a small language for the parsers of package `a2l` with its meaning (`run`, `exec`, `call`); values, structs, maps |
| `A2lParsers.v`, `A2lTokens.v` | the 209 parsers and the keyword table, written in that language by `tools/gen_parsers.py` from `/repo/a2l/*.go` (one Go statement, one statement of the language; each definition cites its lines) |
| `A2lCheck.v`, `A2lThm.v`, `A2lProps.v` | an analysis of the loops of the parsers, proved sound; C59, C63 |
| `A2lFormSpec.v`, `A2lForms.v` (`tools/gen_forms.py`) | grammar of the objects, independent of the parsers: what an object of each kind looks like and what its struct must then contain |
| `A2lDescribe.v`, `A2lSym*.v`, `A2lGrammar.v`, `A2lFormProps.v`, `A2lObjProps.v`, `A2lEnumProps.v` | symbolic reading of parsers, proved sound; C51–C58, C64 |
| `A2lLayout*.v` (`tools/gen_layout.py`) | `record_layout.go`: positions and data types (C49, C50) |
| `A2lMod*.v` (`tools/gen_module.py`) | `module.go`: sequential and parallel parsing of modules (C48) |
| `A2lCut*.v` | module parsing with borders inside objects, and several objects in one place (C48, C65) |
| `A2lQuiet*.v` | which modules satisfy the guard of `A2lCut*.v`, by an analysis of the parsers (C48, C65) |
| `A2lLoose*.v` | modules with unexpected tokens between their objects, and with objects that are refused (C48, C65) |
| `A2lShortProps.v` | modules with less than two tokens for each goroutine (C48, C65) |
| `A2lLostProps.v`, `A2lLostFile.v` | how many objects of a module, of a file are lost (C48, C65) |
| `A2lFile*.v` | `ParseFromFile`, `parseA2l`, `parseProject` with the choice between sequential and parallel parsing, from the bytes of the file (C65) |
| `Glob*.v` | several calls of `ParseFromFile` in one program, with the package variables (C84) |
| `A2lTrip*.v`, `A2lMeetThm.v` | what a list of tokens says about a file, writing it, and reading it again (C69) |
| `Tree*.v` | `record_manager.go`, `compu_methods.go`, `record_layout.go` and `getValuesFromHex` on the parsed tree (C70, C71, C78, C79) |
| `A2lNest*.v` | nesting of begin and end keywords: a second analysis of the parsers of `A2lParsers.v` (C68) |
| `A2lStrict*.v`, `A2lMissProps.v` | the parsers as they are meant, stopping at the first failure, and an analysis of what happens to `err` (C72, C73); missing parameters (C74) |
| `A2lAcceptSpec.v`, `A2lExplore*.v`, `A2lAcceptProps.v` | what the parsers accept, and an analysis of all ways through them (C75) |
| `Origin*.v` | where the contents of the parsed tree come from (C86) |
| `A2lExact*.v` | exactly what every parser reads (C88) |
| `A2lOdd*.v` | exactly what the nine special parsers read (C89) |
| `ConvFileProps.v` | conversions with the tables of any accepted file (C90) |
| `LookFile*.v`, `LookShared.v` | what `GetObjectByIdent` finds in any accepted file (C91) |
| `ValFile*.v` | what `getValuesFromHex` gives with any two files (C92) |
| `GoTypes.v`, `A2lStructs.v`, `A2lType*.v` | Go types, the struct declarations of package a2l, and the check that parsers keep to them (C93) |
| `Hash*.v` | `toHashMap` (C94) |
| `FanFullModel.v`, `FanFullThm.v`, `A2lParModel.v`, `A2lParSpec.v`, `A2lParProps.v` | parallel module parsing with wait groups, closing and collectors in detail (C95) |
| `SameMemSpec.v`, `SameMemProps.v` | hex files of the same memory in other records, another order, the other format (C97) |
| `OrderSpec.v`, `OrderProps.v` | A2L files with the same objects in another order (C98) |
| `WrittenSpec.v`, `WrittenProps.v`, `WrittenEx.v` | an A2L file in any layout (C99) |
| `CutProps.v`, `SCutProps.v` | hex files that break off (C100) |
| `BreakProps.v` | A2L files that break off (C101) |
| `JoinProps.v` | hex files put together (C102) |
| `PatchProps.v`, `PatchCalibProps.v` | other bytes in one record of a hex file (C103), and through ReadCalibration |
| `AddRecProps.v`, `AddRecCalibProps.v` | one data record more or less in a hex file (C104), and through ReadCalibration |
| `EditObjProps.v` | some objects of a module changed (C105) |
| `FailedProps.v` | the integers stored for texts that cannot be read (C86) |
| `LeakSpec.v`, `LeakThm.v`, `LeakHex.v`, `LeakProps.v` | which goroutines of the hex readers end after main has returned (C96) |
| `RepoTests.v` (`tools/gen_tests.py`) | the project's unit tests of the parsers, run on the model |
| `FloatRound.v`, `FloatText*.v` | texts of numbers, and the float64 that `strconv.ParseFloat` makes of them (C87) |
| `Values*.v` (`tools/gen_values.py`) | `getRecordLayout`, `getValuesFromHex`, `getFncValues`, `getFncValues2D` on the parsed tree (C61, C67) |
| `CalibFile*.v` | `ReadCalibration` with the models of all readers (C66) |
| `Files*.v` | both files, `ReadCalibration`, and what lookups, conversions and values then give (C80) |

Suffixes: `Model` = transcription of the code (definitions only), `Spec` =
independent specification, `Proofs`/`Thm` = lemmas, `Props` = the property
theorems, each with a concrete `Example` and `Print Assumptions`.

The generator scripts are part of the trusted reading of `/repo`, like a
transcription by hand; what they print is committed and is what is proved about.
They stop with an error on any Go statement they do not know.

## 3. What is modelled and what is not

Modelled, function by function, with errors and panics as values, fixed-width
wrap-around written out, `runtime.NumCPU()` as an arbitrary positive number, and
goroutines as small-step machines over which the theorems quantify for all
schedules:

* `ihex32`, `srec19`: everything but `readFileToString`'s system call and logging;
* `calib_data.go`: `ReadCalibration`, `readA2L`, `readHex`,
  `getNextAlignedAddress`, `getBytes`, `getValue`, `getRecordLayout`,
  `getValuesFromHex`, `getFncValues`; `characteristic_values.go`;
* `record_manager.go`: everything; `compu_methods.go`: everything;
* the component readers (`axis_pts.go`, `distOp.go`, `no_axis_pts.go`,
  `no_rescale_x.go`, `offsetOp.go`, `shiftOp.go`, `reserved.go`,
  `identification.go`, `fnc_values.go`): their reading pattern;
* `a2l/a2l.go`: everything (`toHashMap` by what `encoding/json` makes of each type, without the text in between);
* the struct declarations of package `a2l` (`A2lStructs.v`, generated by `tools/gen_structs.py`);
* `a2l/token_generator.go`: everything; `a2l/enums.go`, `a2l/tokens.go`: everything;
* all parsers of package `a2l` (209 functions), `GetDatatypeLength`,
  `GetRecordLayoutComponents` and its helpers, `parseModuleMultithreaded` with
  its goroutines.

Not modelled: `configureLogger` and all log output (an error of `configureLogger` is a
parameter), `computeValues` (does nothing), tests, the
vendored libraries.

Assumed about Go and not modelled:

* memory model: channel operations, `WaitGroup` operations and `Lock`/`Unlock` are
  atomic steps that order the accesses around them; goroutines share nothing
  mutable but the records of `ihex32` (under mutexes, C83) in the modelled phases;
* `os.ReadFile` delivers the file content or an error; the log output is not
  modelled; memory is unbounded (no allocation failure); `int` has 64 bits and
  lengths stay below 2^63;
* `strings`, `encoding/hex`, `encoding/binary`, `strconv` behave as documented;
  the parts used are transcribed (cited in the model);
* float64 arithmetic is IEEE binary64, round to nearest even, NaN payloads
  ignored; no fused multiply-add (true on amd64; Go may fuse on arm64, ppc64,
  s390x, riscv64);
* `unicode.IsGraphic` beyond ASCII is a parameter; of it only `IsGraphic(U+FFFD)` is
  used; `regexp` matches leftmost, `.` is one UTF-8 character (or one invalid
  byte) but no line feed, and `$1` without a group is empty;
* `strconv.ParseFloat` is a parameter (any function from texts to
  float-or-error) of the A2L parser models; theorems hold for all such
  functions. `StrconvModel.v` transcribes it, with what it and the integer
  functions return together with an error;
* performance, memory use, logging.

## 4. Properties and how they are proved

`refuted` means: the faithful model violates the statement; a theorem
`…_refuted` gives a witness, and a theorem with the weakest natural guard is
proved beside it.

* **C01** Intel HEX round trip. Encoder written independently in `IhexSpec.v`
  (records to text). Proof: text splitting, line parsing, chunking, checksum
  arithmetic, offset machine (C02), data assembly, each by induction.
* **C02** offsets. Small-step machine: one pc per `addOffsets` goroutine, one
  atomic step per record, any interleaving. Invariant proof for all `numProc`,
  all schedules. Refuted when an extended linear address record 0000 has data
  after it; `C02_as_read` says exactly which upper half each data record of any
  file gets (`upper_read` in IhexSpec.v), on any number of CPUs.
* **C03** schedule independence: confluence of the offset/checksum machine and
  of the ordered-collector machine (`Conc*.v`); every maximal run ends in the
  same state.
* **C04** CPU independence: guarded (all long lines parse, no zero ELA record);
  refuted in general by a broken line.
* **C05** checksum error iff bad record; proved from the machine's final state.
* **C06** single-byte corruption; arithmetic modulo 256.
* **C07** damaged line: refuted (missing colon truncates the chunk silently);
  in general the lines of each part before its first damaged line are read
  (`kept` in HexSpec.v).
* **C08**, **C09** collision and soundness of the assembled map, induction over
  the collected data bytes.
* **C10** terminators: splitting lemmas for `strings.Split`.
* **C11**, **C12**, **C13** refuted by witnesses; guarded versions; `C11_wraps`
  says where the bytes past a border go. `C13_count_ignored` and
  `C13_srec_count_ignored` (any lines, CPUs, schedules): files that differ only in
  byte counts and the checksums that go with them are read alike.
* **C14** panic freedom (model functions return `Panic` on bad index, shown
  unreachable) and deadlock freedom/termination of all machines.
* **C15**–**C20**, **C76**, **C77** S19, same method; C16, C19 and C77 refuted,
  with general theorems on what is read instead (`kept`, `after_part`).
* **C81**, **C82** what is read from any text at all: `AnySpec.v` describes the lines, the
  bytes on them and what they put where; the loop over upper halves is followed for
  records with any text. Guards leave out only address lines of 14 characters and S3
  lines of 12 or 13.
* **C83** the mutexes of `addOffsets`: a machine with one step per access (a write is two,
  with anything visible in between) is simulated by the machine of C02; race freedom,
  correct unlocking, termination and equal results follow. `C83_transfer` carries the
  theorems about `parseFile_exec` over.
* **C21** corollary of C01 and C15.
* **C22**–**C24** machine for the two readers, channels and caller; all
  schedules; C24 refuted.
* **C25** path dispatch; refuted for directories containing `.hex`.
* **C26**–**C32** memory access; integers in `N`/`Z`; floats in `SpecFloat`.
* **C33**–**C39** conversions over `spec_float`.
* **C40**, **C41** lookups over finite maps (association functions).
* **C42**–**C47** token generator transcribed with explicit cursor and fuel; the
  fuel is shown sufficient. White space is the list of 25 characters of Unicode,
  independent of the model (`TokWords.v`).
* **C85** `TokAnySpec.v`: what each word is taken for, and where each construct ends, as an
  inductive relation over any words and line ends; shown total and equal to the
  automaton of `TokSpec.v`, hence to the code.
* **C48** module level, sequential and parallel. The content of a module is an
  inductive relation over tokens (`A2lModSpec.v`). Each goroutine's loop is shown
  to find exactly the objects that begin strictly after its first and not after
  its last index; the shares cover everything but the borders; the fan-in machine
  delivers a permutation of what is sent. Refuted in four ways (section 5).
  `A2lCut*.v`: borders inside objects. A goroutine that begins inside an object first
  reads what its rest contains; of several objects in one place the last of one share
  stays, and every share can be that one. The only hypothesis left is that the
  objects behind a border inside a cut object are complete. `A2lQuiet*.v` derives it,
  for any borders, from the success of the sequential parser: an abstract
  interpretation of the parsers shows that they take every token that begins an
  object of a module for the begin of that object. Excepted are six objects
  (`unread`: IF_DATA and A2ML skip tokens, four parsers take keywords for words); their
  contents must be free of such tokens. Assumes that ParseFloat rejects keywords and
  the empty text (proved of the model of strconv: `C87_keywords`). `A2lLoose*.v`: modules
  that the sequential parser refuses. It does so at a refused object, an unexpected
  keyword or the end of the file (`C48_sequential_error`); the parallel one only at a
  refused object (`C48_error_iff`), unless a border falls on it. One more guard:
  a FRAME must not reach to the end of the file (`framed`).
* **C49**, **C50** record layout as a record of optional components.
* **C51**–**C58**, **C64** object parsers. A decision procedure in Coq reads a parser
  symbolically and compares it with the grammar; its soundness is proved once,
  then each instance is `vm_compute`.
* **C59**, **C63** termination and errors: an abstract interpretation of the parsers,
  proved sound, evaluated by `vm_compute`.
* **C60** component readers; refuted (advance by bits).
* **C68** nesting: another abstract interpretation of the parsers, proved sound: the
  tokens consumed since the start form a nested list. Assumes that ParseFloat
  rejects keywords and the empty text.
* **C61**, **C67** values of a characteristic: the loop over the positions as a relation
  over all iteration orders; that the parser leaves the positions empty is an
  invariant of its program (no statement assigns the field). Refuted; guarded
  theorems with the byte access repaired.
* **C62** text cleaning: what is removed as an inductive relation, and the function
  is shown to compute it; refuted (backslashes).
* **C65**, **C66** composition. `parseProject` and `parseA2l` as relations over the
  outcomes of the module parser; with the sequential module parser they are the
  programs of `A2lParsers.v`, and a simulation carries C48 to the file. Refuted.
* **C84** calls as a machine over the package variables `tokenList`, `moduleCount`,
  `useMultithreading`; each call with its tokenizer goroutines. Invariant for calls one
  after the other; refuted for calls at the same time. Parsing is one step after its
  first access to the tokens, so that the program can do more than the machine when
  calls overlap; for calls one after the other this makes no difference.
* **C69** C42, C62, C64 and C65 put together: from the text to the tree. What ASAP2 and
  the parsers have in common is computed (`meet`, the common part of two forms),
  and words of the common form are shown to describe the same in both. Refuted
  outside of it.
* **C70**, **C71** C40, C33–C39 and C69 put together. The contents of a block as a list
  of entries (keyword, words, value); each field of the tree is shown to be a
  function of that list, and the conversion theorems are then applied to the
  records taken from the tree. `ModuleIndex` (a uint8) is any number.
* **C78**, **C79** the same for C49, C50 and C61: `TreeLayoutSpec.v` says in terms of the
  words of the file where a component is and how it is aligned; the fields of the tree
  are shown to be that. C79 refuted (nothing is read), with the access to the hex map
  repaired proved for integer components.
* **C80** C22, C69, C70, C71 and C79 put together. `alike` says that no function of the
  package tells two calibrations apart; trees whose maps agree are alike. The theorems of
  C71 on the conversions of a chosen module are carried over by `always_chosen`
  (`FilesConv.v`).
* **C72** `A2lStrictSpec.v` gives the parser language a second meaning in which the
  first failure ends the run. An analysis (is `err` known to be nil, known to be set,
  or was it lost?) is proved to imply that both meanings agree, and run on all parsers.
* **C73** `numeral` describes decimal numerals from the right; induction over the word.
* **C74** run of each parser on an object that ends at once; the mandatory parameters
  are those of the grammar (`A2lForms.v`). The guarded statement is a corollary of C75.
* **C75** `A2lAcceptSpec.v` describes what is accepted, by the forms of the grammar.
  `A2lExplore.v` follows all ways through a parser and keeps what is known about
  each word read; `A2lExploreThm.v` proves by induction over the parser language that
  this covers all runs; it is run on all parsers with their forms. The converse
  direction (objects in their form are read) is C64.
* **C86** `OriginSpec.v`: `origin given pf lax v` says that the value `v` is made of given texts
  only (if `lax`, with numbers in place of texts that could not be read); `stands` that an object
  is in the file between its begin and its end. Proved by a check of the programs of all parsers
  (`OriginThm.v`: the cursor steps back only over a token of which nothing was kept; a number that
  could not be read is kept only together with the error) that is shown sound for any tokens.
* **C87** `FloatTextSpec.v` has a grammar for the texts of numbers with their values p/q, and
  `rounded`: the nearest float64, in a tie the one with the even mantissa.  `FloatRound.v`
  proves that the quotient of two integers is rounded so for all numbers up to the middle of
  the largest float64 and 2^1024, and is an infinity from there on.  `StrconvModel.v` then
  reads exactly these texts; with C86 every float in the tree is the float64 for a number in
  the file. `FloatTextMore.v` adds the
  underscores of Go's syntax (`separated`), the words, and that `rounded` determines the float64
  (`C87_iff`, `C87_unique`).  Of an exponent only five digits are used; `FloatTextFar.v` shows that this
  makes no difference in texts of at most 2000 characters (beyond, `C87_refuted`).
* **C88** `A2lExactSpec.v` defines `reads` (an object of a form, from its keyword on, is read as a
  value) and `mixed` (words and objects in any order), for any tokens; `A2lExact.v` has a check
  that compares the program of a parser with a form, `A2lExactThm.v` proves that a program that
  passes returns exactly what `reads` says.  182 of the 191 parsers with a form pass; the
  other nine (`special`) follow rules of their own and enter as a parameter of `reads`.
* **C89** `A2lOddSpec.v` says for each of these nine what it reads (`odd`), on top of `rounds`
  (words and objects in any order, with a state).  `A2lOddThm.v` and `A2lOddParsers.v` prove a
  loop right whose rounds do this, `A2lOddTables.v` and `A2lOddRest.v` treat the nine programs.
  Put into C88, `reads` no longer mentions any parser.  `C89_columns` then follows by an
  invariant of `table`.
* **C90** `ConvFileProps.v` carries `C89_columns` from the modules to the tree of a file and from there
  to compu_methods.go: what a conversion gives for any accepted file, without the assumption of C71 that
  the file is well-formed.
* **C91** `LookFileSpec.v` lists the objects of a module, a project and a file with their positions
  (`contents`, `holdsAt`, `fileHolds`), from the rules of C88 and C89 alone, and says what is to be found
  under a name (`listed`).  `LookFileThm.v` shows how the maps of the tree are built from such a list;
  `LookFileName.v` that the word after the keyword is the name; `LookShared.v` adds files whose
  module is parsed by several goroutines.
* **C92** `ValFileProps.v`: every record layout of an accepted file is one that `parseRecordLayout`
  returned (C89), which never fills `RelativePositions`; so only the record layout and the address text decide
  between no values and a panic.  `kth_word` generalises `C91_name` to the k-th parameter.

* **C93** `GoTypes.v` says when a value is one of a Go type (`conforms`).  `A2lTypeThm.v` has the check of a
  parser, flow-sensitive because variables named `buf` have another type in every branch, and its
  soundness: by induction over the execution the variables keep to the types the check knows.
* **C94** `HashSpec.v` has places as paths (`leads` in the tree, `at_` in the map) and what is to be there
  (`shows`), and UTF-8 after the table of the Unicode standard.  That the texts of a tree are UTF-8 if the
  tokens are comes from C86, the types of the values from C93.  `HashText.v` shows that the tokens are
  UTF-8 if the file is: cleaning, lines, words and tokens all cut a text between characters.  For files in
  any encoding `HashAnySpec.v` says how a text is repaired and which of the keys that become the same is
  shown (`leadsAs`, `showsAs`); `HashAny.v` has the proof, with the order in which keys are written.
* **C95** `FanFullModel.v` has the goroutines of a parallel parse one by one: go statements, wait-group
  counters, closing, receiving and storing are separate steps, and what Go answers with a panic is a step
  to a panicked state.  `A2lParModel.v` puts in the tables; `A2lParSpec.v` says what a race and a live
  goroutine are.  The proof is one invariant with four phases of the caller, a count of the steps left
  that every step lowers by exactly one, and a simulation by the machine of C48 (`FanModel.v`).

* **C96** No goroutine of the readers stays behind.  `LeakThm.v` looks at the machine of `ConcModel.v`
  after main has left it: `never_finished` (more messages unread than the channel holds) and
  `all_finished` (otherwise) together decide it for any messages.  Refuted for Intel HEX, with a
  guarded version; proved for S-records and the tokenizer without a condition.
* **C97** The same memory in other records.  Both round trips and both collision theorems say what is
  read in terms of the list of placed bytes only, so two files whose lists are permutations of each other are
  read alike (`C97_same_memory`), whatever the formats and numbers of goroutines.  Lines of an S19 file and
  segments of an Intel HEX file in another order are special cases; `C97_calibration` is the whole call.
* **C98** The order of the objects in a module.  If no two objects of a kind have the same name, "the last
  such entry" and "an entry" are the same, so every map and both single parts of two modules with permuted entries
  agree (`C98_module`); with C80 and C97 this holds of the whole call (`C98_calibration`).
* **C99** The layout of an A2L file.  `writtenAs` says that a text has given tokens: lines of complete
  constructs, unprintable characters around them.  Cleaning removes exactly those (`clean_ends`), C42 gives
  the tokens, and the rest of the program sees nothing else; so C69 to C80, which speak of the file with
  one token in each line, hold of every layout (`C99_layout`, `C99_write`).  Refuted for comments over several lines.
* **C100** A hex file that breaks off.  The text up to any character has the lines before it and a part of one
  more (`cut_join`, `cut_lines`); the bytes on that part are bytes of the record and an arbitrary last one
  (`cut_bytes`), so that a part that is accepted stores first bytes of the record only (`C100_cut`, for S19
  `C100_srec_cut`).  Refuted: an error for every cut (`C100_silent_refuted`, `C100_chance_refuted`).
* **C101** An A2L file that breaks off.  A result without an error needs a token `/end PROJECT` for each
  `/begin PROJECT` that is met (`open_project`, `C101_open`; the numbers of a version cannot hide one,
  `version_words`).  Torn lines at the end give that token only if they have the word PROJECT (`end_lines`), and the
  lines before them are complete, however they are divided among the goroutines (`last_lines`); so `C101_text`.
  Refuted before the project (`C101_silent_refuted`).
* **C102** Hex files put together.  The records of the joined text are those of both files, and so is the memory if
  the second file sets its own upper half (`own_image`); the first address used twice is then one of both files
  (`merged_images`).  Refuted otherwise (`C102_intel_refuted`), and for S19 files with an S7 record
  (`C102_srec_refuted`).
* **C103** Other bytes in one record.  The images before and after differ in the bytes of this record only
  (`upper_image`); counting how often an address occurs shows which addresses can collide (`patched_image`).
  `C103_calibration_guarded` is the same for two calls of ReadCalibration with one A2L file (from C22 and C69).
  Refuted for Intel HEX files with an upper half 0000 (`C103_intel_refuted`, by C02).
* **C104** One record more or less.  The cases of C103 in which the record has no bytes before or after
  (`image_more`, `image_less`), for a record that is not in the other file at all; through ReadCalibration from C22
  and C69 (`two_calls`).  Refuted for Intel HEX files
  with an upper half 0000 (`C104_intel_refuted`, by C02).
* **C105** Some objects of a module changed.  The last entry with a property is the same with and without entries
  that do not have it (`last_edit`); so the maps of the module agree at all other names (`edit_maps`), and each
  function is followed through the few names it looks up.  Through ReadCalibration as in C98.  Refuted for files
  of one module that cannot be shared out (`C105_one_module_refuted`, by C48).

Nothing in the list is inexpressible; where a runtime aspect is outside the
model (wall-clock, memory use, log files) the property does not mention it.

## 5. Findings

Each is a theorem about the model (name in brackets); the witness can be traced
through the code by hand.

Hex readers
* An extended linear address record 0000 before a nonzero one does not reset the
  upper half; the result then also depends on the number of CPUs
  (`C02_upper_half_refuted`, `C04_cpu_dependent_refuted`, `C08_false_collision_refuted`, `C21_formats_refuted`,
  `C97_zero_segment_refuted`, `C103_intel_refuted`, `C104_intel_refuted`).
* A line that is no record silently ends the part of the file of its goroutine
  (`C07_damaged_line_refuted`, `C19_short_addresses_refuted`, S0 header: `C16_header_refuted`).
* An end record does not end anything in an Intel HEX file: what follows is read with the upper half that was
  in force before it (`C102_intel_refuted`).  In an S19 file an S7 record hides what follows, up to the
  end of the part of its goroutine (`C102_srec_refuted`).
* A file that breaks off between two records is read without an error, since the end record is not asked
  for (`C100_silent_refuted`, `C100_srec_silent_refuted`); inside a data record it is if the bytes left add up by
  chance (`C100_chance_refuted`).
* A goroutine that computes data can wait for ever after the reader has returned with a
  colliding address (`C96_leak_refuted`).
* Data that crosses a 64 KiB border wraps (`C11_border_refuted`); type 02 records and
  data after the end record are read as if nothing (`C12_*_refuted`); the byte count
  is not compared with the length (`C13_byte_count_refuted`); an extended linear
  address record with one data byte takes its checksum as the second byte of the
  upper half (`C13_upper_half_refuted`); a record without
  payload can turn into an address record unnoticed (`C06_empty_record_refuted`).
* In a record with an odd number of digits the third last character is ignored, whatever
  it is (`C81_stray_refuted`, `C82_stray_refuted`); an S3 line without checksum takes the last
  byte of the address for it (`C82_no_checksum_refuted`).

ReadCalibration
* Two failing readers: only one error is reported, not always the same
  (`C24_*_refuted`). The file type is taken from a substring of the whole path
  (`C25_extension_refuted`).

Memory and conversions
* `getBytes` panics for every length of 8 bits and more: `make([]byte, n, 0)`
  (`C26_reading_refuted`); `getNextAlignedAddress` adds the remainder instead of the
  distance (`C27_*_refuted`); 2 byte words are errors and 4 byte longs panic
  (`C29_*_refuted`), short slices panic (`C30_panic_refuted`), FLOAT16 is converted
  wrongly (`C31_float16_refuted`); addresses are swapped in little endian modules
  (`C32_*_refuted`); component readers advance by bits (`C60_*_refuted`).
* `getValuesFromHex` reads nothing, because it runs over a position map that is always
  empty (`C61_nothing_read_refuted`), and crashes for a missing record layout
  (`C61_missing_layout_refuted`); the same in terms of the words of the file:
  `C79_nothing_read_refuted`, `C79_missing_layout_refuted`, and of both files: `C80_nothing_read_refuted`. With the map filled it would crash at the first
  component (`C61_reading_refuted`); with the bytes accessible the result would
  depend on the iteration order of a Go map (`C61_order_refuted`), axis points
  would be taken from every eighth address (`C61_axis_refuted`) and stored addresses
  would be passed over (`C61_skipped_refuted`). An address that is no number stands for
  address 0 and bytes that are not in the image for the value 0, with only a line in the
  log (`C61_bad_address_refuted`, `C61_missing_bytes_refuted`). Function values are never stored and
  their data type is ignored (`C67_*_refuted`).
* `calcRatFunc` solves quadratic equations correctly only by chance (double roots; C34_root_guarded tells which value it returns) and
  reports every linear one with a=d=0 as an error (`C34_*`, `C35_*`); range tables
  never match (`C38_range_refuted`), interpolation always gives 0
  (`C39_interpolation_refuted`), empty verbal tables ignore their default
  (`C37_empty_refuted`).
* A module index out of range panics (`C40_index_refuted`); the value of a system
  constant is always empty (`C41_value_refuted`, `C70_constant_value_refuted`).
* A COMPU_VTAB_RANGE with fewer rows than its number says is read without an error;
  the conversion then panics (`C71_short_refuted`).

Reading the A2L file
* Every backslash and the character after it are deleted from the whole file
  (`C62_refuted`), also `\"` in texts, so that the replacement of `\"` by `'` in the
  tokenizer never happens (`C62_quotes_lost`, `C62_quotes_refuted`).

Tokenizer
* A word with a slash (km/h) ends the token list of its part (`C42_slash_refuted`,
  `C44_dropped_refuted`); comments or texts over a part border give other tokens
  (`C43_multi_line_refuted`), objects inside such a comment can be read (`C99_comment_refuted`); blanks inside texts are merged (`C45_blanks_refuted`);
  comments between /begin and its keyword are not skipped (`C46_*_refuted`).

Parsers
* parseUnit overwrites the long identifier (`C55_refuted`); parseMatrixDim overwrites
  the second dimension (`C51_refuted`); GetDatatypeLength gives 32 bits for words
  (`C54_*_refuted`); parseAddrTypeEnum does not know PLONGLONG
  (`C58_addr_type_refuted`); a truncated FRAME is no error (`C59_frame_refuted`).
* Only the first word of a row of a conversion table is checked: the end keyword of a COMPU_VTAB can
  be taken for a text, and the table then goes on to the next one (`C89_swallows_refuted`).
  BIT_OPERATION forgets an unexpected keyword at the next object in it (`C89_bits_refuted`).  OVERWRITE
  stores the keyword CONVERSION, not the method behind it, and takes the method for its name (`C89_overwrite_refuted`).
  For a COMPU_VTAB_RANGE of any accepted file the conversion gives the default, an error, or (rows
  missing) a panic (`C90_range_refuted`).
  COMPU_VTAB, COMPU_VTAB_RANGE and VAR_FORBIDDEN_COMB take begin and end keywords for
  texts, and BIT_OPERATION overwrites the error of an unexpected keyword
  (`C68_*_refuted`, `C72_bit_operation_refuted`: the only error that is lost).
* Of two objects of a kind with the same name the first is lost without an error (`C91_refuted`, `C98_names_refuted`).  An
  object whose name is READ_ONLY, READ_WRITE or RESERVED is filed under the next word (`C91_unlisted_refuted`).
* parseMeasurement and parseTypeDefMeasurement never set `conversionSet`, so that all words
  after the conversion overwrite it and the limits stay empty (in `C64_standard_refuted`).
* Hexadecimal integers are never read, ECU_ADDRESS_EXTENSION 0x0 is an error
  (`C73_*_refuted`).
* No mandatory parameter of an object with begin and end keyword is mandatory: all 38
  kinds may be empty, and a MEASUREMENT without name is read (`C74_*_refuted`).
* Surplus words in objects with begin and end keyword are skipped silently
  (`C75_surplus_refuted`).
* A number that cannot be read is reported, but the variable gets 0 or the nearest bound
  of its type and counts as set: NUMBER 70000 is kept as 65535 (`C86_error_refuted`).
* `C64_standard_refuted` has a misread object for 27 parsers, among them: every
  ADDRESS_TYPE and ENCODING is an error (the enum parsers read the keyword
  itself), ALTERNATE_* index modes are keywords so that FNC_VALUES and LAYOUT
  with them fail, READ_ONLY, READ_WRITE, RESERVED and FIX_AXIS_PAR cases can never
  be reached, VAR_SEPARATOR is no keyword, parseFrame puts all parameters into
  the name, parseMemorySegment stores the first offset five times,
  parseNoRescaleX stops after the position, parseOverwrite stores the keyword.

Hash map
* `toHashMap` is to give "all structs and their values", but nearly all fields are not public: another
  datatype of a MEASUREMENT gives the same map (`C94_hidden_refuted`).  It fails for files with NAN for a
  number (`C94_nan_refuted`) and changes texts and loses objects of files that are not UTF-8
  (`C94_places_refuted`).

Parallel parsing of modules (the normal path: `useMultithreading` is true for every
file with at most one module)
* An object whose /begin token lies on a border between two shares is lost without
  an error (`C48_refuted`; `C48_as_read` shows: exactly those).
* A goroutine that begins inside an object takes a nested IF_DATA for one of the
  module (`C48_nested_refuted`; a whole file on one CPU: `C65_foreign_refuted`).
* A module with as many tokens as there are goroutines is read as empty, without an
  error, whatever it contains (`C48_all_lost`, `C65_all_lost_refuted`); up to twice as
  many tokens, everything but the end of the module is lost (`C48_short`). In general less
  objects than goroutines are lost (`C48_lost_few`), and that many can be: for every
  number of goroutines there is a module of as many groups of which only the first
  stays (`C48_lost_many_refuted`; the same for whole files: `C65_lost_few`, `C65_lost_many_refuted`).
* Of two objects of one name in different shares either may stay
  (`C48_race_refuted`).
* Unexpected keywords are errors sequentially, unnoticed in parallel
  (`C48_keyword_refuted`).
* Hence `ReadCalibration` of the same two files delivers an A2L tree with a group
  missing on a computer with one CPU and the complete tree on one with two,
  both without an error (`C65_refuted`, `C66_cpus_refuted`).  Whether something is lost depends on the order of the
  objects in the module (`C98_order_refuted`); an object that is put in can make another one vanish
  (`C105_one_module_refuted`).
* A text without any keyword is an A2L file without an error
  (`C65_no_project_refuted`); so is one that breaks off before its project (`C101_silent_refuted`).
* Calls of `ParseFromFile` at the same time share the token list: a call can return the
  content of the other file without an error (`C84_overlap_refuted`), an error for a good file
  (`C84_twice_refuted`), or panic (`C84_panic_refuted`).

## 6. Assumptions printed

`Print Assumptions` under every theorem named in `MANIFEST.json` answers
"Closed under the global context": no axioms at all, neither the standard
library's nor own.

## 7. Seeded edits

`seeded/LOG.jsonl` records edits of single definitions of the model, made in a
copy. `first_failing_statements` are the lemmas and theorems whose own proof no
longer goes through when everything before them is taken for granted;
`theorems_failed` are the theorems of `MANIFEST.json` whose proofs use one of
them. `theorems_tightened` were added or changed because the edit went through,
or was noticed by an example only.

## 8. The model and the project's own tests

Tests prove nothing about the code, but they can show that a model is wrong.
* `RepoTests.v` has the 72 unit tests of the parsers in `/repo/a2l`, printed by `tools/gen_tests.py`; all
  of them pass on the model.
* The model was also extracted to OCaml (`Separate Extraction` of the functions of the models) and run on
  the demo files of the project.  The driver is not kept here, since this directory has no OCaml files.  It
  reads 137324 bytes from the Intel HEX file and 102720 from the S19 file, which is what
  `ihex32/hex_test.go:22` and `srec19/hex_test.go:22` ask for, with any number of goroutines.  The A2L
  files are read without an error and have hash maps, as `a2l/a2l_test.go` and `calib_data_test.go` ask.
* The same run shows C48 and C65 on real files.  With eight goroutines (four CPUs) the MEASUREMENT
  `ASAM.M.SCALAR.UBYTE.HYPERBOLIC` is missing in `testing/ASAP2_Demo_V171.a2l`, and the FUNCTION
  `FunctionDependentParameters` in `a2l/testing/ASAP2_Demo_V171_allKeywords.a2l`, without an error.  With
  32 goroutines `testing/ASAP2_Demo_V171_allKeywords.a2l` has an IF_DATA of an object as one of the
  module.  The project's tests do not notice, since they look at one identifier and at the error only.

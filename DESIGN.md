# Formal model of spasm-ng in Rocq

The model is a set of total Gallina functions, one per modelled C++ function, in
`rocq/theories/`.  The whole assembler is one function,

    main : fuel -> world -> command line -> Done status files state | Crash reason | OutOfFuel

so a theorem can speak about the command line, the source text, the exit status, the messages
and the files written.

## Files

| files | contents |
|-------|----------|
| `Base.v`, `State.v` | bytes, C integers; the state record (the C++ globals), outcomes, the state monad |
| `*Model.v`, `Knot.v`, `OpcodeTables.v` | the model; definitions only, each citing file and lines of /repo |
| `Validate.v`, `Programs.v` | the project's own test programs run in the model: tests of the model, not theorems about it |
| `*Spec.v` | specifications written without the model's functions |
| `*Proofs.v`, `*Run.v`, `*Defs.v`, `*Ext.v`, `*Skip.v`, `AsmData.v`, `AsmExpand.v`, `AsmInstr.v`, `AsmLine.v`, `AsmRef.v`, `Whole.v` | lemmas |
| `*Props.v` | the theorems named in `MANIFEST.json`, each beside an `Example` that meets its hypotheses, and `Print Assumptions` |

## Conventions

* Text and binary data are `list Z` of byte values 0..255.  The C NUL terminator is the end of
  the list; a `char *` is the remaining suffix.  Bytes from 128 are in no ctype class; plain
  `char` is signed.
* 32-bit integers are `Z` with an explicit range.  Signed overflow in `+ - *` and negation is
  decided by a parameter of the world, `c_wrap`: if it is false overflow is the outcome
  `Undef UB_overflow`, as the language says; if true the result wraps around, as compiled code
  does in practice.  Theorems hold for both unless they say otherwise.  Left shift of a negative
  value is taken as GCC defines it.
* Undefined behaviour is an outcome of its own and never a value: `UB_overflow`, `UB_divide`,
  `UB_oob` (access outside an array or string), `UB_null`, `UB_dangling` (freed define),
  `UB_uninit`, `UB_outbuf` (write outside the output buffer).
* The C++ functions call each other across files without bound.  Each body takes the functions it
  calls in a record `fns`; `Knot.v` ties the record with fuel.  Running out of fuel is an outcome
  of its own.  `FuelProofs.main_mono`: more fuel never changes a result, so a theorem that finds
  a result for some fuel has it for all larger fuel; such theorems state the fuel that is enough.
* `Whole.v` is the induction over the whole assembler: a property of commands that holds of the
  primitive steps and is kept by sequencing and choice holds of every function of both passes
  (C02, C17, C47 use it).
* Platform: Linux build of the Makefile (`USE_REUSABLES`, `USE_BUILTIN_FCREATE`, `UNIXVER`),
  32-bit `int`, signed `char`, C locale.

## Trusted base

* The kernel of Coq 8.16.1 (with `vm_compute`), and the compiler that built it.
* Axioms: none.  `Print Assumptions` answers "Closed under the global context" for every theorem
  listed in `MANIFEST.json`; the command stands after each theorem in the `*Props.v` files, so a
  build prints it.  Floating point (bitmap luminance) uses `Coq.Floats.SpecFloat`, plain
  definitions, not primitive floats.
* The reading of the C++ text: that each definition of the model says what the cited lines say.
  The code was not run.  What supports the reading: the model assembles the programs of
  /repo/tests to the bytes and messages that their CHECK lines ask for (`Validate.v`), and the
  instruction tables were generated from opcodes.cpp and opcodes_ez80.cpp by a script, not typed.
* The specifications (`*Spec.v`), which are meant to be short enough to read; `Z80Spec.v` is a
  decoder for the processor written from the structure of the opcode byte, `IhexSpec.v` a reader
  of Intel HEX, `ExportSpec.v` readers of the calculator formats, `ParserSpec.v` the meaning of
  expressions, `AsmSpec.v`/`CondSpec.v`/`MacroSpec.v` a reference assembler.

### Parts of the code that are modelled

| source | modelled | in |
|--------|----------|----|
| main.cpp | options, both passes, choice of output name and format, exit status | `MainModel.v` |
| pass_one.cpp | line loop, labels, instructions, macro calls, `write_out` | `PassOneModel.v`, `PassTwoModel.v`, `Knot.v` |
| pass_two.cpp | operand queue, `write_arg`, second pass | `PassTwoModel.v` |
| directive.cpp | every directive | `DirectiveModel.v` |
| preop.cpp | every preprocessor command, skipping, includes | `PreopModel.v` |
| parser.cpp | expression evaluation, operand lists, `eval`/`concat`/`fcreate` built-ins | `ParserModel.v` |
| utils.cpp | scanners, strings, paths, suffixes | `UtilsModel.v`, `ErrorsModel.v` |
| storage.cpp, hash.cpp, list.cpp | labels, defines, macro arguments, anonymous labels; the hash table as a map | `StorageModel.v` |
| errors.cpp | error list and sessions | `ErrorsModel.v` |
| expand_buf.cpp | the growable buffer, at the level of memory cells | `ExpandBufModel.v` |
| modp_ascii.cpp | upper-casing, a word at a time | `ToupperModel.v` |
| bitmap.cpp | included pictures, with IEEE double luminance | `BitmapModel.v` |
| export.cpp | all formats, page and checksum arithmetic, signing | `ExportModel.v`, `IhexModel.v` |
| opcodes.cpp, opcodes_ez80.cpp | both tables, all rows | `OpcodeTables.v` |

### Parts that are not modelled, or only by their meaning

* The listing (`-T`) is modelled apart from the rest (`ListingModel.v`): what happens to it in a line
  is an argument, it is not tied to a run of the assembler; banners are left out, and its `text[32]`
  buffers are not checked.  The text of the statistics of `-C` and `-S` is a function of the final state (`StatsModel.v`).  Not modelled: the assembly time, console colours and the
  wording of messages (a message is its code, whether it is a warning, its file and line).
* The Windows COM front end: Z80Assembler.*, Z80Label.*, CTextStream.*, Module.h, dll*.c*,
  CIncludeDirectoryCollection.h, console.cpp.
* Library functions by their documented meaning: MD5 is a parameter `c_md5` of the world giving
  16 bytes; GMP's `mpz_legendre` is Euler's criterion (`c30_legendre` proves that this is the
  residue symbol for the key's primes), `mpz_powm` modular power; `rand()` is a parameter
  `c_rand`; the file system is a function from names to contents plus the list of files written.
* hash.cpp wraps a `std::map` ordered by `strcmp`; it is modelled as a finite map.  Freeing memory is
  modelled only for defines, where a freed one can still be used.
* Allocation never fails; buffers of fixed size are checked where the code's index is computed
  from input (output buffer, anonymous labels, argument lists), but the 2*MAX_PATH buffer of
  `__FILE` is not.
* Inside the assembler the expand buffer is a text; `ExpandBufProps.v` (C24) is the statement
  that the memory-level buffer behaves as that text.

## Method per property

| id | proof |
|----|-------|
| C01 | expression trees printed to text in every spelling; induction over the tree shows that the parser returns the left-to-right value |
| C02 | `DivProofs.v`, through `Whole.v`: no run of `main` ends in `UB_divide` |
| C03, C04 | induction over digits; fuel measure on the text length (`TermProps.v`: operands with no macros also in their expansion) |
| C05–C07 | induction over operand characters with quote and parenthesis state |
| C08–C10, C36 | arithmetic over all 32-bit values and positions; finite check over the table rows lifted by `forallb_forall` |
| C11, C49 | `Z80Spec.v` decodes what is emitted; finite check over rows, operand values general |
| C12 | the matcher accepts every rendering of a row (`Match*.v`) |
| C13, C37–C39, C48 | `AsmSpec.v` is a reference assembler on structured programs; `AsmData.v`, `AsmInstr.v`, `AsmLine.v`, `AsmRun.v` show line by line, by induction over the program, that the model's first pass agrees with it; `SecondProofs.v`, `ResolveProofs.v` that the second pass fills the slots with the final values |
| C14, C15, C18, C47 | frame properties of evaluation (`EvalProofs.v`, `FrameProofs.v`) and invariants over the operand queue |
| C16, C17 | refinement of the flat error list to a stack of lists (`Session*.v`) |
| C19–C23 | refinement of the tables to functions and scope stacks; sortedness and permutation for the label file |
| C24 | refinement of memory cells to list splicing |
| C25–C29, C31 | independent readers of the formats; round trip |
| C30 | Fermat, Pocklington certificates for both primes, Chinese remainders, Euler's criterion (`PrimeProofs.v`) |
| C32, C33 | structured programs with conditional blocks (`CondSpec.v`); `CondSkip.v` that skipping stops where the block ends, `CondRun.v` that the lines run are the chosen ones |
| C34, C35, C42, C46 | direct, over all file systems and names |
| C41 | what is printed into text reads back as the value |
| C43 | `ShadeProofs.v` double-precision luminance, `BitmapProofs.v`/`BitmapRun.v` the loops |
| C44 | an added row is a table row: the theorems on rows apply |
| C45 | bit-level lemma on 32-bit words |
| C50 | unfolding of defined symbols inside expressions, by induction over their nesting (`DefineProps.v`, `Params` and `Frame` in `AsmSpec.v`) |
| C51, C52 | `MacroSpec.v`: calls as statements; `MacroRun.v` a call runs the body with the parameters bound, `MacroDefs.v` what a definition stores (with `#macro` or in one line with `#define`), `MacroProps.v` whole programs |
| C53 | the same theorem with includes and imports as statements that stand for the lines and the bytes of another file (`MacroSpec.source`, `located`); `FileProps.v` replaces an include by the text of the file, by induction over the program |
| C54 | direct, for all states |
| C55, C56 | `MacroSpec.values`: constants in front of a program, read through `Consts` in `AsmProofs.v`; `ConstProps.v` swaps definitions of equal value; a witness where the expression waits |
| C57–C62 | `DirProps.v`: one directive at a time, for all states, through the reading of expressions (C01) and lists (C06); witnesses by computation |
| C67 | `ListingProps.v`: the listing is a sequence of pieces with places to be filled; induction over bytes, parts, lines and entries |
| C68 | `FrontSpec.counted`: the definitions that count in front of a program; `FrontRun.front_pass` by induction over what stands in front, files and branches included; `FrontProps.v` adds a second inclusion of a guarded file |
| C69 | `MacroSpec.short`: a macro written in one line with `#define`; `MacroDefs.short_def` what it stores, `MacroRun.kept_body` both forms of a stored body run alike, `ShortProps.calls_rewritten` only name, parameters and body of a macro count |
| C70 | `OptionProps.read_is`: the options as a list of items; what is read is fixed by the switches as a set, the directories in order and the rest in order |
| C71 | `FunProps.call_run`: arguments are bound in a new set, the body is read in its own session at the depth the arguments left, the set is removed; `row_run` by induction over the row. The value is `row_value`, from left to right |
| C72 | `LayoutProps.same_program` relates two structured programs by what they state, with a correspondence of names; `assemble_alike` shows by induction over it that the reference assembler gives the same bytes, and C48 carries this to the runs of the two texts |
| C73 | `LineProps`: `split_joined` for the directories and `c70_order`; `define_one` for -D; `AsmRun.run_ok` with the text of -V or the default output name |
| C74 | `GenProps`: `gen_dispatch` finds the word, `emit_written` the text of `wr`; `leads` composes lines (`AsmLine.line_run`) and generated groups (`gen_leads`, a nested pass in its own session), then `AsmRun.run_gen`; `at_` keeps the buffers |
| C75 | `InvProofs`: `inv` (label table strictly ordered, keyed by folded name; output buffer of bytes) is kept by every function (`inv_closed`, by `Whole`), and labels stay; with `c23_label_file` |
| C76 | `InvProps`: the parts of the run before the output file is written do not look at its name (`parts_code`); formats by `c31`, `c25`, `c26`, `c27`, `c28` |
| C77 | `EnvProofs.le` relates two commands: the first draws no fewer random numbers than before, and if it draws none and ends, the second is equal to it; every function of the assembler keeps it (`knot_alike`) |
| C78 | the two configurations are convertible wherever a program is read (`knot_labelled`), the listing of defines is an evaluation in the sense of C47 (`EV_lab_defines`), and the file written is a function of the code (`write_file_out`) |
| C79 | the instruction is the row of C12 and its bytes those of C10 (`P_instruction`); operands are evaluations in the sense of C47, which leave the counters alone |
| C80 | `TimingSpec.v` gives the times from the opcode bits; the table is checked against it by computation, and C79 carries the row to a statement |
| C81 | the list of values is emitted as in C62 (`emit_list`); the name is read back by C06 (`c06_round_trip`); `disk_after` says what the disk holds after the echoes of a run |
| C82 | reading as in C57 (`dispatch`, `parse_stands`); the resulting state is given exactly, so nothing else changes |
| C83 | induction over the ways of writing (`writes`): the depth of parentheses of a written expression never falls below its start (`even`); the scan follows the depth (`scan_through`) |
| C84 | symbolic run of `line_sec` and `add_label` on an arbitrary state; C01 for the value of the expression, carried over to the state with the label set (`relabelled_is`) |
| C85 | symbolic run of `handle_preop` on an arbitrary state, by cases on the word |
| C86 | symbolic run of `dir_show` and of the queued message in an arbitrary state of the second pass; induction over the parameters |
| C87 | induction over the list of parameters, with the names already taken as accumulator (`arg_defs_bad`) |
| C88 | as C84, with the errors of C01 in place of the value; a witness by computation |
| C89 | as C82, with the errors of C01 in place of the value; induction on the list of errors for the end of the pass; a witness by computation |
| C90 | as C38 at the level of one line; the end of a pass for every list of problems; a witness by computation |
| C91 | well-founded induction on the fuel: every level of the include needs a lower level |
| C92 | induction on the table of instructions; case analysis of one line |
| C93 | C01's induction on expressions, continued into what follows |
| C94 | induction on the text behind the expression and on the parentheses before it |
| C95 | the invariant of C17; computation of witnesses |
| C63–C66 | `PreopProps.v`: one preprocessor line at a time (C63 by induction over the lines of the comment), for all states |

Further properties are listed with their method in the notes of `MANIFEST.json`.

Where a property is false of the code as it stands, the manifest has a `_refuted` theorem with a
concrete witness beside the strongest true variant, named `_partial` when something provable is
still missing from it.

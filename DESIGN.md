# DESIGN — formal model of the gaia 6502 assembler

The whole program (src/*.c) is modelled as executable Gallina functions, function by
function, in `rocq/theories/`. The model is a deep-enough semantics of the C code: C
strings are lists of bytes (`list ascii`) without NUL, pointers into the current line are
offsets, arrays are lists accessed through bounds-checked reads, `int` arithmetic that the
code does not bound is checked for overflow, `unsigned long (long)` arithmetic wraps mod
2^64. Undefined behaviour and non-termination are distinct outcomes (`Undef`, `Diverge`).

## Plan per property

- **C01 Opcode table is the documented 6502 instruction set** — Model assemble_* and bitfields as functions of the flag; Spec.v transcribes the CSV; finite check over 59x13 lifted to all integers by case analysis on the switch.
- **C02 Mnemonic recognition** — str_to_mnemonic as a string-compare cascade; spec = lookup of the upper-cased word in the list of 56 names.
- **C03 Numeric literals have their mathematical value** — lex_literal with the accumulator mod 2^64; induction on digits; wrap-around gives a refutation of the full claim and a theorem below 2^64.
- **C04 Malformed literals are rejected at the offending character** — same model; error offset characterised by induction.
- **C05 Label length limit** — lex_text loop with its 64 bound; token buffer write modelled with an explicit bounds check (outcome Undef).
- **C06 Case-insensitivity** — relational simulation of the whole program on two sources equal under toupper.
- **C07 Comments are ignored** — line-level lemma (lexer stops at ';'), lifted to programs; long comments refuted.
- **C08 Blank space is insignificant** — lexer lemma on blanks; lifted to programs.
- **C09 Lexing a line does not depend on the previous lines** — lex_line takes the reused objects as arguments; theorem says result equal for any two of them.
- **C10 At most eight tokens per line, none lost** — declarative token relation in Spec.v, lex_line sound and complete for it.
- **C11 Syntax: the accepted lines are exactly those of the documented grammar** — grammar of parser.h as an inductive on token types; exact characterisation + refutation.
- **C12 Addressing-mode selection** — syntax-directed spec of the mode; finite case analysis over masks.
- **C13 Addressing-mode selection for forward references** — same for forward references; refuted by JMP FWD,X; exact characterisation.
- **C14 The symbol table is a map** — array model with djb2 mod 2^64 and linear probing; refinement to a finite map by an invariant.
- **C15 Symbol table operations terminate** — load-factor invariant; probe loop is fuelled with Diverge on exhaustion, excluded by proof.
- **C16 Table sizes are the next prime** — is_prime by trial division up to the integer square root; least-prime theorem; 2^31-1 prime bounds the search; Flocq justifies floor(sqrt((double)x)).
- **C17 Labels are write-once** — invariant over the line loop.
- **C18 A label denotes the address where it stands** — trace semantics: address of each line.
- **C19 Undefined labels** — line-step lemma + final loop.
- **C20 Forward references are all resolved** — back-patching invariant of the line loop + final loop.
- **C21 Pending-reference array bounds** — array model with explicit bounds; induction over additions.
- **C22 Branch offsets** — arithmetic.
- **C23 Instruction encoding** — file model (bytes + position, zero fill on seek past the end).
- **C24 Program counter advances by the instruction size** — line-step lemma and sum over the trace.
- **C25 Every emitted opcode is a documented one** — refuted by JMP FWD,X; proved for programs without it.
- **C26 Agreement with a two-pass reference assembler** — Spec.v two-pass assembler over abstract statements; simulation relation between both.
- **C27 Code placed at an address stays there** — refuted (dummy bytes at the stale file position); proved for non-decreasing origins.
- **C28 Branch operands are never truncated** — refuted for branches with a literal; proved for all other instructions.
- **C29 Addresses stay within 64 KiB** — refuted by a witness; proved under an explicit bound.
- **C30 .END ends the program** — prefix lemma on the chunk list.
- **C31 Equivalent spellings** — state equality of the line step.
- **C32 Every failure is reported** — refuted for lines with more than eight tokens; proved otherwise.
- **C33 The error arrow points at the error** — column function of a terminal in Spec.v.
- **C34 Line length limit** — fgets model; proved for lines of at most 126 characters, refuted beyond.
- **C35 Success report** — stdout model.
- **C36 Termination** — all loops are fuelled with an explicit Diverge outcome; theorem: never Diverge.
- **C37 No undefined behaviour on ASCII sources** — UB is an explicit outcome of the model; theorem: never Undef under the stated bounds.
- **C38 Non-ASCII bytes are harmless** — ctype calls on negative chars are Undef in the model: refuted by a witness; exact condition proved.
- **C39 Out-of-memory safety** — allocation oracle quantified over in the model.
- **C40 A failed assembly leaves no output** — refuted by a witness; what is left is characterised.
- **C41 The source file is never modified** — file-system model; refuted when both names are equal, proved otherwise.
- **C42 File errors** — file-system model.
- **C43 Emitted code disassembles to the source instruction** — spec disassembler from the CSV table. `C43_exact`: an instruction reads back if and only if its operand fits.
- **C44 Command-line options table is well formed** — refuted: the array has no terminator.
- **C45 Place of a syntax error** — exact characterisation of the token index where a line departs from the grammar.
- **C46 Place of a lexical error** — the first bad token of Spec_Text; lexer outcomes are exhaustive.
- **C47 Command line** — model of argp_parse for the options table and of parse_opt (Model_Args).
- **C48 Labels can be renamed** — relational proof on the intermediate machine (Proof_Core): environments related by the renaming (Proof_Match).
- **C49 Empty lines** — same framework: line numbers related by the insertion, everything else equal.
- **C50 Constants** — same, with the invariant that the constants read so far are in the environment.
- **C51 Memory** — second model of the program with an explicit heap (Model_Memory): heap = permutation of owned blocks, every init/destroy/insert/resize function specified by the blocks it owns, simulation with the value model (Model_Main) line by line; allocation oracle arbitrary.
- **C52 History** — reading a source is a left fold over its lines; split the fold at the given lines: a stopped fold ignores the rest, a running one reports later line numbers (Report determines its line number: decimal numbers are injective, Proof_Decimal).
- **C53 Again** — case analysis of main over the file system model.
- **C54 Line ends** — CR is a blank of the lexer: instance of the line-by-line congruence of C36–C38 (Prop_Same).
- **C55 Own line / two origins**, **C56 Unused definitions** — both programs run through the diagnosing specification (Spec_Diag) side by side with equal-up-to-fresh-names environments (Proof_Rewrite), then C26/C27 carry the result to the code.
- **C57 Hoisting** — pass 1 with one more constant in the environment produces the same items (a forward jump or branch is coded as the defined one); exception JMP n,X/Y with counterexample.
- **C58 Relocation** — simulation of pass 1 at two origins (Proof_Reloc), addresses differ by b − a, encoded items related by the inductive relation of Spec_Edit.
- **C59 Appending** — items of pass 1 ascend, environments extend; pass 2 over an extended environment gives the same bytes.
- **C60 Kill points** — Model_Io records every content the output file has; each line and each patch writes consecutive bytes at one place (Proof_Seen), the contents between two such steps differ from both only by zeros or right bytes; the contents between lines are images of prefixes of the writes (Proof_Crash). With the calls recorded as well (io_made), an invariant of all runs through a buffer (Prop_Buffer): the file is the work of the calls in front of the buffered bytes.
- **C61 Write errors** — natural claim false (refuted on a full disk); simulation of Model_Io and Model_Main with an arbitrary relation between the files, for every set of failing calls.
- **C62 Read errors** — natural claim false (refuted); the reads before the failing one are the reads of the source that ends there.
- **C63 File names** — the machine run `Run` does not mention the name; `settled` puts it at the head of the report only.
- **C64 Parallel runs** — `Model_Sched.v`: processes as step functions on a shared file system; invariant: each process is where it is after as many steps alone; alone, the steps are `main`.
- **C65 Round trip** — a disassembler written from the opcode table (`Spec_Listing.v`); each of its lines means the instruction, the pieces of code are adjacent, so the image is the code.
- **C66 Every instruction can be written** — natural claim false (refuted); exact set of instructions that cannot be written, by an invariant of the first pass.
- **C67 Memory and search effort** — chain of the table sizes computed and tied to `least_prime_above` by uniqueness; invariant over all histories; a run of occupied slots is no longer than the number of labels (pigeonhole).
- **C68 The binary determines the instructions** — linear decoder in `Spec_Decode.v`; the items of a block form a chain of addresses; C43, C65 and C66 for the operands and the round trip.
- **C69 Number of allocations** — two runs of Model_Memory with allocation histories that agree on the first N: same result, and the counter of calls grows by at most 1, 2, 3, … for each function; composed with a bind rule.
- **C70 Numbers for labels** — pass 1 over the program with numbers gives items with the same addresses and opcodes and equal encodings (pass1_like, pass2_like); uniqueness of the image does the rest.
- **C71 Command lines** — Model_Argv.v (getopt_long with permutation, argp's own options); every command line starts in one of six ways (first_words), induction over the words.
- **C72 Order of constants** — diag_from over the lines passed, relating a state that knows the constant to one that does not; same writes, so the same file for any origins.
- **C73 File of every run** — Spec_Left lists the writes of a run up to its first error; the run relation gives the file at each kind of end, `finish` completes a prefix of the open operands.
- **C74 Every source text** — Spec_Total describes the pieces, the statements the program understands (the grammar and its trailing-token lines), and the four ways a reading ends. Proved total, single-valued, and to give exit code, output text and output file, by simulating it with the run relation of Proof_Run.
- **C75 Every invocation** — Model_Disk: names lead to paths, paths to files; Spec_Process lists the six things an invocation can do. C71 gives the meaning of the words, C74 the result of the source; opening for writing is specified by the file it goes to.
- **C76 Running the binary** — Spec_Cpu: an abstract processor (fetch, decode with the documented table, arbitrary effects) and the same machine on the statements of the source; a simulation in both directions, by C27 (bytes in the file), the encoding lemmas of C43 and 16-bit arithmetic.
- **C77 Size of the output** — an invariant on the reading of C74 (the location counter is at most 65535 + 3 for each line read), through the pieces of the image; the number of lines by induction on the cutting of the text.
- **C78 Stale memory** — Model_Raw: the lexer, print_error and create_forward_ref again, on arrays with indices and arbitrary bytes behind every NUL; a refinement (Proof_Raw, Proof_Raw2): where the model on strings returns, the model on arrays returns the same, for all contents of the arrays.
- **C79 Unambiguous reports** — Spec_Told: the error of a source (`faulty`), over the reading of C74; no colon in a success text, no newline in a message or a line shown, columns grow with offsets, and every position is at most one behind a visible character.
- **C80 Running out of memory** — Spec_Oom: the statements taken before the run breaks off (`takes`), over the reading of C74; a line with failing allocations is simulated by the one without, or it has a label without a value and the run ends with an unchanged file; main_h (the program with a heap) refines main with some choice of failures.
- **C81 Separate assembly** — Spec_Join: `apart`, `joined`, `two_parts`; the reference assembler on the second part, started from the labels of the first part, does what it does on its own (simulation over the labels it names); then the images.
- **C82 A patch is local** — over `address` and `labels` of Spec_Prog; the reference assembler behind the replaced part depends only on the address and the label values (the simulation of C81 with all labels), and the pieces of the part lie inside its addresses.
- **C83 An error after a patch is in the patch** — over Spec_Diag: reading a statement does not depend on the instructions in front of it; an operand left open in front of the part or behind it is completed with the same labels as before.
- **C84 Missing labels can be supplied** — over Spec_Diag: the definitions only extend the labels, so what was complete stays complete and an open operand fails only as a branch out of range.
- **C85 Cutting off the end of a program** — over Spec_Diag: the lines of the beginning are read in the same states; an operand left open is completed with fewer labels, so the only new failure is a missing label.
- **C86 Exactly the sources that are handled safely** — the reading relation of Spec_Total says where a byte from $80 is reached (C74_undefined); the heap and buffer refinements of C51 and C78 hold wherever the plain model is defined.
- **C87 The command line with POSIXLY_CORRECT** — getopt with the ordering REQUIRE_ORDER (Model_Argv), against its own grammar of command lines; equal to C71's for command lines with their options in front.
- **C88 Where every byte of the binary comes from** — Spec_Bytes.v names the four causes in terms of the addresses of the instructions; the last write to an address is found by induction over the writes (Proof_Kept, Prop_Bytes).
- **C89 Every program can be written** — Spec_Write.v: a formatter over the tokens of a statement; its lines have the tokens they were made from (induction over the tokens), and no line with the same tokens is shorter if there is no number among them (induction over Lexes); the result of the formatted text follows from C31.
- **C90 Inserting or removing code** — Spec_Shift.v: which labels and places move; the first pass of the reference assembler on the two programs, statement by statement behind the replaced part (the places and the labels differ by the shift, the modes are the same), then the encoding of each operand modulo 256 or 65536. The binaries follow from C26 and C27.
- **C91 A program may state its addresses** — the two programs lead the diagnosing reference assembler of Spec_Diag.v to the same state behind the edited line (or to states that differ in the address only, which is not used any more); as C55.
- **C92 The order of blocks** — the first pass on a block in two contexts whose labels do not contradict each other gives the same items and labels (a label unknown in one of them can only be the operand of a branch or jump); the two codes are the same pieces in another order, which do not overlap. Partial: false with backward origins and open references (C92_refuted).
- **C93 The value of a constant** — the first pass with the two values gives the same addresses and the same symbols but the one, because the addressing mode of every operand is the same; then the comparison of two instructions made for C90.
- **C94 Data** — the code of the constructed source is computed by induction on the data; there are no labels, so that C27 (no forward references) gives the file, and the last piece at every address is the wanted byte. The first byte of a binary by C88.
- **C95 Only branches** — where the first pass of the reference assembler succeeds, a line is reported by the diagnosing one only for a branch; the first pass succeeds on the edited program by the comparison of C90, statement by statement. C95_exactly: the items of the first pass are those of the statements at their addresses, so a hopeless one is a branch out of reach; C95_crossing is this for the edited program with the addresses and labels of C90.

## What is modelled

| Code | Model |
|---|---|
| src/opcode.c, opcode.h, bitfields.h, addressing_modes.h, assemble.c, assemble.h | Model_Opcode.v |
| src/error.c, error.h | Model_Error.v |
| src/lexer.c, lexer.h | Model_Lexer.v |
| src/symbol_table.c, prime.c | Model_SymbolTable.v |
| src/parser.c, parser.h | Model_Parser.v |
| src/forward_reference.c | Model_ForwardRef.v |
| src/generator.c | Model_Generator.v |
| src/main.c (loop, file handling, summary) | Model_Main.v |
| src/main.c (argp options, parse_opt) | Model_Args.v |
| argp_parse and getopt_long of glibc as main calls them, with and without POSIXLY_CORRECT | Model_Argv.v |
| every fgets/fputc/fseek/fclose of src/main.c and src/generator.c, with failures | Model_Io.v |
| src/main.c, several processes at once on one file system | Model_Sched.v |
| src/main.c from argv on, on a file system with links | Model_Disk.v |
| every malloc/calloc/realloc/free/fopen/fclose of src/*.c | Model_Memory.v |
| src/lexer.c, error.c, create_forward_ref, djb2_hash on the bytes of their buffers | Model_Raw.v |

Every definition cites the file and lines it models. `Base.v` has the outcome monad
`M = Ret | Undef | Diverge` and the C library functions used (ctype, printf formats, strings).

Abstractions, all stated at the definitions:

- C strings are lists of bytes; pointers into the current line are offsets. Reads and writes
  through them are bounds-checked; a violation is `Undef`. Model_Raw has the arrays behind the strings; C78 relates both.
- The output file is a byte list and a position (`OFile`); write errors (full disk) are
  modelled in Model_Io only. The buffer of stdio is in Spec_Buffer (any number of bytes may wait in it, a
  seek and a close empty it); C60_buffered shows that it adds no contents to those of Model_Io. A file system is a map from names to contents plus a
  predicate telling which files can be created; two names are one file only if they are equal.
  Model_Disk has a file system with hard and symbolic links; C75_plain relates both.
- `int` is 32 bits, `unsigned long`/`unsigned long long` 64 bits, `char` signed (x86-64 Linux).
- Strings printed are collected in order; terminal behaviour is the specification of C33 only.
- floor(sqrt((double)x)) is the integer square root; justified by C16_float_sqrt, C16_loop_test
  with Flocq's binary64.
- Model_Main uses values for the symbol table and the pending references and one flag per line for
  each kind of allocation; Model_Memory has pointers and single allocations, and C51 relates both.

Not modelled: unity/, the Makefile, the texts of `--help`, `--version` and the usage message of argp,
failures of printf, signals other than a kill, the compiler.
Failing fgets/fputc/fseek/fclose are in Model_Io only (a failing fputc or fseek may leave any file).

## Trusted base

- The kernel of Coq 8.16.1 (with vm_compute) and its standard library.
- The model: that the Gallina functions do what the C code does (read line by line, not
  extracted), and that the small specifications Spec_*.v say what the English properties say.
- Print Assumptions of every claimed theorem is printed by Audit.v at the end of the build. All of
  them are "Closed under the global context", except C16_float_sqrt and C16_loop_test, which use the
  real numbers: ClassicalDedekindReals.sig_not_dec, ClassicalDedekindReals.sig_forall_dec,
  FunctionalExtensionality.functional_extensionality_dep and Classical_Prop.classic (all of the
  standard library). Loading the library of the reals also brings the parameters of
  Rdefinitions.RbaseSymbolsImpl / RinvImpl and, through Flocq/ssreflect, those of
  ssrunder.Under_rel, into the list of axioms of the environment; no claimed theorem other than the
  two named above depends on any of them.
- No axiom, module type or functor is declared, and no Variable or Hypothesis outside a section; nothing is admitted.

## Validation of the model

The C code cannot be run here, so the model is compared with what its authors say of the code:

- `tools/tests.py` translates the unit tests of /repo/tests (the ten test files of the C modules) into
  `Check_*.v`: 2215 assertions in 42 test functions are evaluated on the model; all hold. 176 assertions
  and statements without counterpart are left out (a pointer is not NULL, the int result of token_strcpy,
  enum values out of range).
- `tools/examples.py` writes the seven programs of /repo/example into `Check_Examples.v`, with the bytes
  a small assembler in that script (independent of the model and of the C code) expects. They meet the
  hypotheses of the theorems on whole programs, the reference semantics gives these bytes, and so does
  the model when it is run on six of them (the seventh has an image of 57 KB; there C26 is used).

These files are tests, not proofs of properties; no claimed theorem depends on them.

## Layers

`Spec_*` small specifications; `Proof_Core.v` an intermediate machine on tokens (`compile`,
`line_step`, `Run`), `Proof_Sim*.v`, `Proof_Run.v` the refinement of the C model to it;
`Proof_Alike.v`, `Proof_Match.v` relational frameworks on the machine; `Proof_Rewrite.v`,
`Proof_Place.v`, `Proof_Reloc.v` edits and moves of programs on the reference assembler;
`Model_Memory.v`/`Proof_Heap*.v` the explicit heap; `Model_Raw.v`/`Proof_Raw*.v` the bytes of the buffers; `Model_Io.v`/`Proof_Io.v`/`Proof_Seen.v`/`Proof_Crash.v`
failing calls and kill points; `Model_Sched.v`/`Proof_Sched.v` processes on one file system; `Prop_*.v` the theorems
named in MANIFEST.json, each with a concrete case next to it or in Prop_Cases.v.

## Defects of the code found by the proofs

1. `OPERAND,X` / `OPERAND,Y` does not check what follows (C11_refuted).
2. A line of more than eight tokens aborts without a message (C32_refuted).
3. The literal accumulator wraps mod 2^64 (C03_refuted).
4. Lines of more than 127 bytes are split, also inside of comments (C34_refuted, C07_refuted).
5. With an `.ORG` to a lower address, placeholder bytes and back-patches overwrite code (C27_refuted_*, C26_refuted_image).
6. `JMP LABEL,X` / `,Y` to a later label is accepted and emits $F3 (C13_refuted, C25_refuted).
7. Branch with a number above $FF is truncated (C28_refuted).
8. The program counter may pass $FFFF (C29_refuted).
9. A failed assembly leaves a partial output file (C40_refuted).
10. Equal source and output names destroy the source (C41_refuted).
11. The argp `options[]` array has no terminator (C44_refuted).
12. ctype functions are called with negative values for bytes $80-$FE (C38_refuted); $FF acts as end of line.
13. `LABEL=$10` without blanks is rejected (C08_needs_blank).
14. An allocation failure while assembling aborts without a message; failed initialisations and a failed
    realloc leak blocks (C51_refuted).
15. `(count + 1) * 100` overflows at 21.4 million symbols (C15_limit).
16. Results of fputc, fseek and fclose are ignored: a full disk gives exit status 0 (C61_refuted).
17. A failing fgets is taken for the end of the source; a directory assembles as an empty program (C62_refuted).
18. An absolute operand below $100 cannot be written; `LDA $10,Y` is refused although absolute,Y exists (C66_refuted).
19. Two runs without -o at the same time mix their output in a.out (C64_same_output).
20. In a line with tokens behind an indexed operand, the last mnemonic counts and a later `(` or `X` changes the mode: `LDA 5,Y STA X` assembles to STA 5,X (C74_more_case).
21. With POSIXLY_CORRECT set, the usual `gaia SOURCE -o FILE` is refused (C87_order_matters).

## Wrong programs

`seeded/LOG.jsonl` has one line per wrong program tried (699): 310 written by hand (one or more per
definition of the model, with the properties they break) and 389 automatic ones (constants,
comparisons, swapped branches). Each was built in a copy; failing lemmas were admitted there one after
another to find out which claimed theorems depend on them. 21 survive: programs
with the same observable behaviour, each with a note saying why. Where the claim named before the run was not
the one the edit falsifies, claim_broken was corrected afterwards and the line says so.

{"id": "C01", "title": "Opcode table is the documented 6502 instruction set", "statement": "For every mnemonic and every addressing mode, the opcode the assembler produces is the one listed for that pair in opcodes/6502ops.csv; a pair the list does not contain has no opcode (an error code is returned) and the set of modes advertised for a mnemonic is exactly the set of modes listed for it.", "quantifier": "every mnemonic (56) x every addressing mode (13), and every other integer passed as addressing-mode flag", "why_tests_cant": "The unit tests compare a few dozen pairs; the claim is about the whole table and about every integer that is not a valid flag.", "anchors": ["src/opcode.c:get_opcode", "src/opcode.c:get_addr_bitfield", "src/assemble.c:assemble_*", "src/bitfields.h", "opcodes/6502ops.csv"]}
{"id": "C02", "title": "Mnemonic recognition", "statement": "A word in the source is taken as an instruction if and only if, up to letter case, it is one of the 56 documented mnemonics, and it is then taken as that mnemonic; no two different words (up to case) denote the same mnemonic.", "quantifier": "every text", "why_tests_cant": "The set of words is infinite; tests try the 56 mnemonics and a few others.", "anchors": ["src/opcode.c:str_to_mnemonic", "src/lexer.c:lex_instruction", "src/lexer.c:lex_text"]}
{"id": "C03", "title": "Numeric literals have their mathematical value", "statement": "A literal written in base 16 ($), base 2 (%) or base 10 is accepted exactly when its mathematical value fits in two bytes, and its value is then the positional value of its digits, whatever the number of digits, leading zeros or letter case; a literal of value above $FFFF is rejected with 'value of literal exceeds 2 bytes'.", "quantifier": "every digit string of every length in the three bases", "why_tests_cant": "Tests use literals of at most a few digits; the accumulator is a 64-bit integer and the claim covers digit strings that overflow it.", "anchors": ["src/lexer.c:lex_literal"]}
{"id": "C04", "title": "Malformed literals are rejected at the offending character", "statement": "A '$' or '%' with no digit after it, and a digit that does not belong to the base, are rejected with 'illegal character' and the reported position is the first offending character.", "quantifier": "every line and every position of a literal in it", "why_tests_cant": "The position claim ranges over every prefix length and every character.", "anchors": ["src/lexer.c:lex_literal", "src/lexer.c:is_end_of_token"]}
{"id": "C05", "title": "Label length limit", "statement": "A word of at most 63 letters, digits and underscores is accepted whole (all of its characters are significant) and a longer one is rejected with 'label exceeds 63 characters'; the token text never overruns its 64-byte buffer.", "quantifier": "every word of every length", "why_tests_cant": "A boundary claim about every length; a buffer overrun is silent in a test.", "anchors": ["src/lexer.c:lex_text", "src/lexer.c:token_strncpy", "src/lexer.c:MAX_TOKEN_STR_LEN"]}
{"id": "C06", "title": "Case-insensitivity", "statement": "Two source files that differ only in the letter case of their text produce the same exit status, the same binary file, byte for byte, and the same symbol/byte counts.", "quantifier": "every pair of sources equal up to letter case", "why_tests_cant": "A relational property over pairs of arbitrary programs.", "anchors": ["README.md", "src/lexer.c:token_strncpy", "src/lexer.c:hex_digit_to_int", "src/lexer.c:lex_text", "src/lexer.c:lex_directive"]}
{"id": "C07", "title": "Comments are ignored", "statement": "Changing, adding or removing the text of a comment (from ';' to the end of its line) does not change the exit status nor the binary.", "quantifier": "every source and every replacement of the comment text of any of its lines", "why_tests_cant": "A relational property over arbitrary programs and comment texts (including comments containing code, non-ASCII bytes, or longer than the line buffer).", "anchors": ["src/lexer.c:lex_line", "src/lexer.c:end_line_lexing", "src/main.c:MAX_BUFFER_SIZE"]}
{"id": "C08", "title": "Blank space is insignificant", "statement": "Leading blanks, trailing blanks and the number and kind (space, tab) of blanks between two tokens do not change what a line assembles to.", "quantifier": "every line and every amount of blank inserted at its start or end or where a blank already stands", "why_tests_cant": "Quantifies over all lines and all amounts of white space.", "anchors": ["src/lexer.c:lex_line"]}
{"id": "C09", "title": "Lexing a line does not depend on the previous lines", "statement": "The tokens and the instruction obtained from a line depend only on the text of that line: nothing left in the reused lexer, token and instruction objects from earlier lines can leak into it.", "quantifier": "every line and every prior content of the reused objects", "why_tests_cant": "Needs all histories of the reused objects, not a few sequences.", "anchors": ["src/lexer.c:lex_line", "src/lexer.c:reset_lexer", "src/lexer.c:reset_token", "src/opcode.c:reset_instruction"]}
{"id": "C10", "title": "At most eight tokens per line, none lost", "statement": "When lexing of a line succeeds, the token sequence is exactly the list of the tokens of the line in order (each one a maximal piece of the text at its recorded position), followed by null tokens up to eight; a line with more than eight tokens is rejected.", "quantifier": "every line", "why_tests_cant": "Quantifies over all lines; a dropped or duplicated token for some input is not visible in samples.", "anchors": ["src/lexer.c:lex_line", "src/lexer.c:add_token", "src/lexer.c:lex"]}
{"id": "C11", "title": "Syntax: the accepted lines are exactly those of the documented grammar", "statement": "A sequence of tokens is accepted if and only if it is derivable from the grammar documented in parser.h (instruction, label, directive and base trees, each ended by the end of the line).", "quantifier": "every sequence of tokens", "why_tests_cant": "The grammar has unboundedly many instances; trailing garbage is accepted or rejected per position.", "anchors": ["src/parser.h", "src/parser.c:parse_line", "src/parser.c:parse_instr_tree", "src/parser.c:parse_indirect_operand_tree", "src/parser.c:parse_label_tree", "src/parser.c:parse_directive_tree", "src/parser.c:parse_base_tree"]}
{"id": "C12", "title": "Addressing-mode selection", "statement": "For an instruction with a resolved operand, the mode chosen is the one the operand syntax denotes (immediate, zero page or absolute by operand size, indexed by X or Y, indirect forms, accumulator, relative for branches, absolute for jumps whatever the size), exactly one mode is chosen, and the instruction is rejected with 'illegal addressing mode' exactly when the mnemonic does not have that mode.", "quantifier": "every mnemonic, every operand syntax and every 16-bit operand value", "why_tests_cant": "The combinations (56 x 9 x 65536) are only sampled by tests.", "anchors": ["src/parser.c:parse_addr_mode", "src/parser.c:apply_masks", "src/addressing_modes.h"]}
{"id": "C13", "title": "Addressing-mode selection for forward references", "statement": "A branch or jump to a label not yet defined is accepted only in a mode the instruction has (relative for branches, absolute or indirect for JMP, absolute for JSR); any other operand form is rejected with 'illegal addressing mode'.", "quantifier": "every branch/jump mnemonic and every operand syntax", "why_tests_cant": "The combinations of mnemonic and operand form are infinite as token sequences; the failing ones produce a plausible binary.", "anchors": ["src/parser.c:parse_forward_ref_addr_mode", "src/parser.c:apply_masks", "src/main.c:main"]}
{"id": "C14", "title": "The symbol table is a map", "statement": "After any sequence of insertions of distinct labels, a search for a label returns the value it was inserted with and a search for any other label returns 'not found'; insertion never changes the value of another label, whatever the hash collisions and however many resizes happened.", "quantifier": "every sequence of insertions and every searched label", "why_tests_cant": "Depends on every collision pattern and resize point.", "anchors": ["src/symbol_table.c:insert_symbol", "src/symbol_table.c:search_symbol", "src/symbol_table.c:resize_symbols", "src/symbol_table.c:djb2_hash"]}
{"id": "C15", "title": "Symbol table operations terminate", "statement": "Probing always meets a free slot: the table is always less than 51% full, so search, insertion and resize terminate without reading outside the array.", "quantifier": "every sequence of insertions and every searched label", "why_tests_cant": "Non-termination of the probe loop needs a full table; no finite test excludes it.", "anchors": ["src/symbol_table.c:insert_symbol", "src/symbol_table.c:search_symbol", "src/symbol_table.c:resize_symbols"]}
{"id": "C16", "title": "Table sizes are the next prime", "statement": "next_prime(x) returns the least prime greater than x, without overflow, for every int below INT_MAX; in particular the table grows to the least prime above twice its size.", "quantifier": "every integer x, 0 <= x < 2^31-1", "why_tests_cant": "2^31 inputs; tests check fifteen.", "anchors": ["src/prime.c:is_prime", "src/prime.c:next_prime"]}
{"id": "C17", "title": "Labels are write-once", "statement": "A label keeps the value given by its first definition until the end of assembly, and any later definition of the same label (by position, '=', .EQU or .DEFINE, in any letter case) makes the assembly fail with 'no redefinition of labels'.", "quantifier": "every source file", "why_tests_cant": "A history property of whole programs.", "anchors": ["src/parser.c:parse_label_declaration", "src/symbol_table.c:search_symbol"]}
{"id": "C18", "title": "A label denotes the address where it stands", "statement": "A label at the beginning of a line (alone or before an instruction) is defined as the address of the next byte assembled from that point on; a constant label is defined as its literal.", "quantifier": "every source file and every label in it", "why_tests_cant": "Depends on the sizes of all previous instructions and on all origin changes.", "anchors": ["src/parser.c:parse_label_declaration", "src/main.c:main"]}
{"id": "C19", "title": "Undefined labels", "statement": "A label used before its definition is accepted only as the operand of a branch or jump; any other use before definition fails with 'illegal forward reference'; a branch or jump to a label that is never defined makes the assembly fail with 'label definition was not found'.", "quantifier": "every source file", "why_tests_cant": "A history property of whole programs.", "anchors": ["src/parser.c:parse_label_operand", "src/main.c:main"]}
{"id": "C20", "title": "Forward references are all resolved", "statement": "When assembly succeeds, the operand of every branch or jump to a label defined later is the value the label finally has: no reference is lost or patched with a wrong address, however many there are.", "quantifier": "every source file, any number of pending references", "why_tests_cant": "Needs the growth of the pending list at every size, and every order of references and definitions.", "anchors": ["src/forward_reference.c:add_forward_ref", "src/forward_reference.c:resize_unresolved", "src/forward_reference.c:create_forward_ref", "src/generator.c:resolve_forward_ref", "src/main.c:main"]}
{"id": "C21", "title": "Pending-reference array bounds", "statement": "Adding any number of forward references keeps them all, in order, always leaves a NULL terminator inside the allocated array, and never writes outside of it.", "quantifier": "every sequence of additions", "why_tests_cant": "Out-of-bounds accesses at a growth boundary are silent.", "anchors": ["src/forward_reference.c:add_forward_ref", "src/forward_reference.c:resize_unresolved", "src/forward_reference.c:destroy_unresolved"]}
{"id": "C22", "title": "Branch offsets", "statement": "For a branch at address p to address d, the operand byte b is produced exactly when -128 <= d-(p+2) <= 127, it satisfies p+2+signed(b) = d, and otherwise assembly fails with 'branch offset too far away'.", "quantifier": "all pairs of addresses", "why_tests_cant": "All pairs of 16-bit addresses, and the boundary at both ends.", "anchors": ["src/generator.c:calc_branch_offset", "src/generator.c:resolve_label_ref", "src/generator.c:resolve_forward_ref"]}
{"id": "C23", "title": "Instruction encoding", "statement": "The bytes written for an instruction at address p are, at p, its opcode followed by its operand in little-endian order, one byte for one-byte modes and two for absolute and indirect modes; nothing else in the file changes.", "quantifier": "every accepted instruction, every operand and every content of the output file", "why_tests_cant": "Quantifies over all instructions, operands, positions and prior file contents.", "anchors": ["src/generator.c:generate_code", "src/generator.c:resolve_forward_ref"]}
{"id": "C24", "title": "Program counter advances by the instruction size", "statement": "After each accepted instruction the address counter has advanced by the documented size of the instruction (1, 2 or 3 bytes), also for forward references; lines without instruction do not move it except .ORG and *=, which set it to their operand.", "quantifier": "every line in every state of the assembler", "why_tests_cant": "A history property over whole programs.", "anchors": ["src/main.c:main", "src/generator.c:generate_code"]}
{"id": "C25", "title": "Every emitted opcode is a documented one", "statement": "When assembly succeeds, every instruction of the source has been given a documented opcode of its own mnemonic.", "quantifier": "every source file", "why_tests_cant": "Quantifies over all programs; a wrong opcode for one operand form is not visible in samples.", "anchors": ["src/generator.c:generate_code", "src/parser.c:parse_forward_ref_addr_mode", "src/main.c:main"]}
{"id": "C26", "title": "Agreement with a two-pass reference assembler", "statement": "For every program written in the documented syntax, the single-pass assembler with back-patching succeeds exactly when a two-pass reference assembler (first addresses, then code) does, and then produces the same memory image: every byte of the file is the one the reference puts at that address, or zero in a gap.", "quantifier": "every source program in the documented syntax whose origins do not move backwards", "why_tests_cant": "Equivalence of two assemblers on all programs.", "anchors": ["src/main.c:main", "src/lexer.c", "src/parser.c", "src/generator.c", "src/forward_reference.c", "src/symbol_table.c"]}
{"id": "C27", "title": "Code placed at an address stays there", "statement": "A byte assembled at an address is in the final file at that address unless later code of the source is assembled at the same address.", "quantifier": "every source file, including those that move the origin backwards", "why_tests_cant": "Needs all interleavings of origin changes, code and forward references.", "anchors": ["src/main.c:main", "src/generator.c:generate_code"]}
{"id": "C28", "title": "Branch operands are never truncated", "statement": "A numeric operand of an instruction that does not fit in the operand field of the chosen addressing mode makes the assembly fail; it is never silently truncated.", "quantifier": "every instruction and every numeric operand", "why_tests_cant": "Quantifies over all mnemonics and values.", "anchors": ["src/parser.c:parse_addr_mode", "src/generator.c:generate_code"]}
{"id": "C29", "title": "Addresses stay within 64 KiB", "statement": "A successful assembly never produces code beyond address $FFFF, and every label address fits in 16 bits.", "quantifier": "every source file", "why_tests_cant": "A bound over all programs.", "anchors": ["src/main.c:main"]}
{"id": "C30", "title": ".END ends the program", "statement": "Nothing after a .END line has any influence on the result.", "quantifier": "every source prefix and every text after it", "why_tests_cant": "Relational property over arbitrary suffixes.", "anchors": ["src/main.c:main"]}
{"id": "C31", "title": "Equivalent spellings", "statement": "'L = v', 'L .EQU v' and '.DEFINE L v' have the same effect; '.ORG v' and '*=v' have the same effect; 'L:' and 'L' have the same effect; 'ASL' and 'ASL A' (LSR, ROL, ROR likewise) assemble to the same byte.", "quantifier": "every label, value, mnemonic and assembler state", "why_tests_cant": "Relational property in every assembler state.", "anchors": ["src/parser.c:parse_label_declaration", "src/parser.c:parse_base_tree", "src/parser.c:parse_directive_tree", "src/parser.c:parse_addr_mode", "src/lexer.c:lex_line"]}
{"id": "C32", "title": "Every failure is reported", "statement": "Whenever the assembler exits with failure because of the source text, it has printed an error message of the form file:line: ERROR: ..., where line is the number of the line at fault, followed by the text of that line.", "quantifier": "every source file", "why_tests_cant": "Quantifies over all failing programs.", "anchors": ["src/main.c:main", "src/error.c:print_error", "src/lexer.c:lex_line"]}
{"id": "C33", "title": "The error arrow points at the error", "statement": "When an arrow is printed under the source line, it is in the terminal column (tab stops every 8) of the offending character.", "quantifier": "every line and every error position in it", "why_tests_cant": "All mixtures of tabs and characters.", "anchors": ["src/error.c:print_error"]}
{"id": "C34", "title": "Line length limit", "statement": "Source lines of at most 126 characters are processed one by one and keep their line number; longer lines do not change the meaning of the program either.", "quantifier": "every source file", "why_tests_cant": "Line splitting depends on every line length.", "anchors": ["src/main.c:MAX_BUFFER_SIZE", "src/main.c:main"]}
{"id": "C35", "title": "Success report", "statement": "On success the assembler prints the number of bytes assembled, which is the sum of the sizes of the instructions, and the number of symbols, which is the number of labels defined; and it exits with status 0.", "quantifier": "every source file", "why_tests_cant": "Quantifies over all programs.", "anchors": ["src/main.c:main"]}
{"id": "C36", "title": "Termination", "statement": "The assembler terminates on every input file.", "quantifier": "every byte string as input file", "why_tests_cant": "Non-termination cannot be excluded by tests.", "anchors": ["src/main.c:main", "src/lexer.c:lex_line", "src/symbol_table.c", "src/prime.c:next_prime"]}
{"id": "C37", "title": "No undefined behaviour on ASCII sources", "statement": "On every input file made of ASCII bytes (of any content, also syntactically wrong, up to 20 MB) no access outside of an array or string, no null dereference, no signed overflow and no invalid character-class call happens.", "quantifier": "every ASCII byte string below 20 000 000 bytes", "why_tests_cant": "Undefined behaviour is usually silent in tests.", "anchors": ["src/*.c"]}
{"id": "C38", "title": "Non-ASCII bytes are harmless", "statement": "A byte above $7F in the source outside of comments is an illegal character and leads to an error message, not to undefined behaviour.", "quantifier": "every byte string as input file", "why_tests_cant": "UB in the <ctype.h> calls on negative char values is silent on the test platform.", "anchors": ["src/lexer.c:lex", "src/lexer.c:is_valid_token_char", "src/lexer.c:lex_directive"]}
{"id": "C39", "title": "Out-of-memory safety", "statement": "If any of the memory allocations made during assembly fails, the assembler exits with failure; it never reports success with a different binary.", "quantifier": "every source file and every pattern of allocation failures", "why_tests_cant": "Fault injection at every allocation of every run.", "anchors": ["src/symbol_table.c:insert_symbol", "src/forward_reference.c:create_forward_ref", "src/forward_reference.c:add_forward_ref", "src/main.c:main"]}
{"id": "C40", "title": "A failed assembly leaves no output", "statement": "When assembly fails, the previous content of the output file is kept (or no partial binary is left behind).", "quantifier": "every failing source file and every previous content of the output file", "why_tests_cant": "A crash/failure-point property: holds or not at every failure point.", "anchors": ["src/main.c:main", "src/main.c:abort_gaia"]}
{"id": "C41", "title": "The source file is never modified", "statement": "Assembling does not change the source file, whatever the output name given with -o.", "quantifier": "every source content and every pair of file names", "why_tests_cant": "Depends on file aliasing.", "anchors": ["src/main.c:main"]}
{"id": "C42", "title": "File errors", "statement": "If the source cannot be opened the assembler fails with a message naming it and does not touch the output file; if the output cannot be created it fails with a message.", "quantifier": "every file-system state and every pair of names", "why_tests_cant": "Quantifies over file-system states.", "anchors": ["src/main.c:main"]}
{"id": "C43", "title": "Emitted code disassembles to the source instruction", "statement": "The bytes emitted for an instruction determine its mnemonic, addressing mode and operand: decoding them with the documented opcode table gives the instruction back.", "quantifier": "every accepted instruction", "why_tests_cant": "Round-trip over all instructions and operands.", "anchors": ["src/generator.c:generate_code", "src/assemble.c", "opcodes/6502ops.csv"]}
{"id": "C44", "title": "Command-line options table is well formed", "statement": "The table of options handed to the argument parser is terminated as the library requires, so that parsing the command line never reads outside of it.", "quantifier": "every command line", "why_tests_cant": "Reading past a static array is silent.", "anchors": ["src/main.c:options"]}
{"id": "C45", "title": "Place of a syntax error", "statement": "When a line whose tokens are all legal is not a line of the grammar, assembly fails at that line with 'illegal syntax' ('illegal base' if the line starts with '*'), and the arrow points at the first token with which the line can no longer be completed to a line of the grammar; there is no arrow exactly when the line ends too early. There is exactly one such place.", "quantifier": "every program prefix that assembles and every following line", "why_tests_cant": "All token sequences in all states.", "anchors": ["src/parser.c:parse_line", "src/error.c:print_error"]}
{"id": "C46", "title": "Place of a lexical error", "statement": "When the text of a line cannot be cut into tokens, assembly fails at that line with the message for the first offending token (illegal character, literal too big, label too long, illegal directive) and the arrow points at the offending character.", "quantifier": "every program prefix that assembles and every following line", "why_tests_cant": "All line texts in all states.", "anchors": ["src/lexer.c:lex_line", "src/error.c:print_error"]}
{"id": "C47", "title": "Command line: one source, last -o wins", "statement": "The program assembles exactly when the command line has exactly one source argument; otherwise it ends with a usage message and exit status 64 before any file is opened. The output file is the argument of the last -o option, or a.out when there is none.", "quantifier": "every command line", "why_tests_cant": "All orders and numbers of options and arguments.", "anchors": ["src/main.c:parse_opt", "src/main.c:main"]}
{"id": "C48", "title": "Labels can be renamed", "statement": "Replacing every label of a program by another one, different labels by different labels, changes neither the exit status, the binary, the success output nor the message and line number of a failure.", "quantifier": "every source file whose lines have at most 126 characters and every injective renaming of labels", "why_tests_cant": "Quantifies over all programs and all renamings; the labels go through a hash table whose layout the renaming changes.", "anchors": ["src/symbol_table.c:insert_symbol", "src/symbol_table.c:search_symbol", "src/generator.c:resolve_label_ref", "src/generator.c:resolve_forward_ref", "src/main.c:main"]}
{"id": "C49", "title": "Empty lines can be inserted and removed", "statement": "Inserting lines that hold nothing but blanks and a comment between two lines changes neither the exit status, the binary nor the success output; a failure is reported with the same message, line text and arrow, and its line number is moved by the number of lines inserted before it.", "quantifier": "every source file (the lines before the insertion of at most 126 characters, the rest arbitrary bytes) and every list of empty lines", "why_tests_cant": "Relational property over all programs, insertion points and inserted lines; line numbers are kept in pending references until the end of the run.", "anchors": ["src/main.c:main", "src/lexer.c:lex_line", "src/parser.c:parse_line", "src/forward_reference.c:create_forward_ref"]}
{"id": "C50", "title": "A constant stands for its value", "statement": "Writing the value of a constant defined earlier instead of its name, in the operand of any instruction that is not a branch, changes neither the exit status, the binary, the success output nor the message and line number of a failure.", "quantifier": "every source file whose lines have at most 126 characters and every choice of the occurrences replaced", "why_tests_cant": "Quantifies over all programs and all sets of replaced occurrences; the addressing mode is selected by two different pieces of code for names and numbers.", "anchors": ["src/generator.c:resolve_label_ref", "src/parser.c:parse_label_operand", "src/generator.c:generate_code"]}
{"id": "C51", "title": "Memory is used safely, files are closed, a successful run releases everything", "statement": "Whatever allocations fail, the process ends without reading, writing or freeing memory it does not own, without dereferencing NULL and without overrunning a copied string; both files are closed; if every allocation succeeded the exit status, the output text and the files are those of a run with unlimited memory and every allocated block was freed, on success and on every error exit alike; if one failed the exit status is 1 and no file other than the output file changed.", "quantifier": "every sequence of outcomes of malloc, calloc and realloc, every file system, every source file of fewer than 20,000,000 bytes below $80", "why_tests_cant": "Any of the allocations may fail at any point, and the clean-up code runs in the state reached then; tests do not inject allocation failures.", "anchors": ["src/main.c:main", "src/main.c:abort_gaia", "src/lexer.c:init_lexer", "src/lexer.c:destroy_lexer", "src/symbol_table.c:insert_symbol", "src/symbol_table.c:resize_symbols", "src/symbol_table.c:destroy_symbol_table", "src/forward_reference.c:create_forward_ref", "src/forward_reference.c:add_forward_ref", "src/forward_reference.c:destroy_unresolved"]}
{"id": "C52", "title": "Lines are taken in order and an error in them is final", "statement": "The lines read so far either settle the whole outcome, whatever follows them, or every error report of a run that goes on is about a later line or about the target of a jump or branch. So an error reported for a line depends only on the lines up to it (unless it is the undefined-label or distance error of a jump or branch found at the end), the first erroneous line is the one reported, and no continuation of the source can make it disappear.", "quantifier": "every list of lines of at most 126 characters and every byte sequence that follows them", "why_tests_cant": "Quantifies over all continuations of all sources.", "anchors": ["src/main.c:main", "src/main.c:gaia", "src/error.c:print_error"]}
{"id": "C53", "title": "Runs are reproducible and touch only the output file", "statement": "A run changes no file but the output file; its exit status, its printed text and what it writes depend only on the source file and on whether the output file can be created, not on what the output file contained nor on any other file; running the program again on the same source gives the same status, text and files.", "quantifier": "every file system, source name, output name and allocation behaviour", "why_tests_cant": "Quantifies over all file systems and previous contents.", "anchors": ["src/main.c:main"]}
{"id": "C54", "title": "Line-end style does not matter", "statement": "A source whose lines end with CR LF gives the same result (status, binary, summary; message and line number of a failure) as with LF, line by line in any mixture, and so does a source with or without a newline after its last line.", "quantifier": "every source of at most 20,000,000 bytes with lines of at most 126 characters", "why_tests_cant": "Quantifies over all sources and all mixtures of line ends.", "anchors": ["src/lexer.c:lex_line", "src/main.c:main"]}
{"id": "C55", "title": "A label may stand on its own line; the last of two origins counts", "statement": "Moving a label in front of an instruction to a line of its own directly before, or removing an origin that is directly followed by another origin, changes neither status, binary, number of bytes and symbols, nor the message of a failure.", "quantifier": "every well-formed program and every such place in it", "why_tests_cant": "Quantifies over all programs, both valid and erroneous ones.", "anchors": ["src/parser.c:parse_line", "src/parser.c:parse_label_declare", "src/generator.c:generate_code", "src/main.c:gaia"]}
{"id": "C56", "title": "Unused definitions are harmless", "statement": "Adding a label or a constant whose name occurs nowhere else in the program, at any place before .END, changes neither status nor binary nor the message of a failure; after a success the summary counts one more symbol.", "quantifier": "every well-formed program, every place and every unused name", "why_tests_cant": "Quantifies over all programs and names; names share hash buckets, growth of the table and prefixes.", "anchors": ["src/symbol_table.c:insert_symbol", "src/symbol_table.c:search_symbol", "src/parser.c:parse_constant"]}
{"id": "C57", "title": "A constant may be defined earlier", "statement": "If a program whose origins never go backwards assembles, it gives the same binary and the same summary after the definition of a constant has been moved to the first line, unless the name is used before its definition by a JMP with index register (no 6502 instruction; C57_indexed_jump shows that the code then does differ).", "quantifier": "every well-formed program and every constant definition in it", "why_tests_cant": "Quantifies over all programs; forward references and backward references are coded by different functions.", "anchors": ["src/generator.c:resolve_label_ref", "src/generator.c:generate_code", "src/forward_reference.c:add_forward_ref"]}
{"id": "C58", "title": "Moving a program to another address", "statement": "If a program with one origin in front assembles, it assembles at any other origin, with the same summary; the code differs only in the addresses of the operands that name a position in the code, and these are larger by the difference of the origins. (Labels used by instructions other than jumps must not be in the zero page at one of the origins; branches go to labels.) Code whose only references to positions are branches is byte for byte the same.", "quantifier": "every well-formed program without further origins and every pair of origins", "why_tests_cant": "Quantifies over all programs and all pairs of addresses.", "anchors": ["src/generator.c:generate_code", "src/generator.c:resolve_label_ref", "src/generator.c:resolve_forward_refs", "src/generator.c:write_byte"]}
{"id": "C59", "title": "Added code leaves the code in front alone", "statement": "If a program and the same program with further statements at its end both assemble and the origins never go backwards, the binary of the longer program begins with the binary of the shorter one.", "quantifier": "every pair of well-formed programs, one a beginning of the other", "why_tests_cant": "Quantifies over all programs and all continuations; patches of forward references are written into existing code.", "anchors": ["src/generator.c:generate_code", "src/generator.c:resolve_forward_refs", "src/main.c:main"]}
{"id": "C60", "title": "A killed run does no lasting harm", "statement": "If the process is killed at any moment, every file but the output file is as before the run (even if calls on the files fail as well), and running the assembler again gives exactly what the killed run would have given. For a program that assembles and whose origins never go backwards, the output file is then the old one or an unfinished binary: not longer than the binary, and each of its bytes is zero or the right one. (The old content is lost as soon as the output file is opened: C60_not_atomic.)", "quantifier": "every moment of every run, all file systems, and for the last part every such program", "why_tests_cant": "A test can kill the process at a few moments only.", "anchors": ["src/main.c:main", "src/generator.c:generate_code", "src/generator.c:resolve_forward_ref"]}
{"id": "C61", "title": "A write error is reported", "statement": "If a write, a seek or the close of the output file fails, the exit status is not 0.", "quantifier": "every program and every set of failing calls", "why_tests_cant": "Quantifies over all sets of failing calls.", "anchors": ["src/generator.c:generate_code", "src/generator.c:resolve_forward_ref", "src/main.c:main"]}
{"id": "C62", "title": "A read error is reported", "statement": "If the source file cannot be read to its end, the exit status is not 0.", "quantifier": "every source and every first failing read", "why_tests_cant": "Quantifies over all sources and all reads.", "anchors": ["src/main.c:main"]}
{"id": "C63", "title": "File names do not matter", "statement": "The name of the source file has no influence on the exit status and on the binary; it is only the beginning of an error report. Two calls on the same text in two files, with two output names, write the same bytes and print the same text up to that name.", "quantifier": "all sources (below 20 million characters) and all names", "why_tests_cant": "Quantifies over all names and sources.", "anchors": ["src/main.c:main", "src/error.c:print_error", "src/lexer.c:init_lexer"]}
{"id": "C64", "title": "Several assemblers at the same time", "statement": "When any number of assemblers run at the same time on one file system, each with its own output file that none of them reads, then under every interleaving of their steps, and wherever others are killed, each one that exits has the exit status, the text and the output file it has when it runs alone; no other file changes; and none can be blocked or delayed for ever by the others. (With the same output file, as with the default a.out, this fails: C64_same_output.)", "quantifier": "all numbers of processes, all sources, all interleavings, all kill points", "why_tests_cant": "A test observes a few schedules.", "anchors": ["src/main.c:main"]}
{"id": "C65", "title": "Disassembled code assembles to itself", "statement": "Machine code that a (linear) disassembler turns into source lines of the form LDA $1234,X is assembled back, byte by byte, to the same code.", "quantifier": "every byte sequence of up to a million bytes that the disassembler can write", "why_tests_cant": "Quantifies over all machine code.", "anchors": ["src/generator.c:generate_code", "src/opcode.c:get_opcode", "src/parser.c:parse_addr_mode", "src/lexer.c:lex_line"]}
{"id": "C66", "title": "Every documented instruction can be written", "statement": "For every documented opcode and all operand bytes there is a source line that assembles to them.", "quantifier": "all documented opcodes, all operand bytes, all sources", "why_tests_cant": "Quantifies over all sources for the instructions that cannot be written.", "anchors": ["src/parser.c:parse_addr_mode", "src/opcode.c:get_opcode"]}
{"id": "C67", "title": "Memory and search effort are linear", "statement": "After any number of insertions, with or without failing allocations, the symbol table has at most 4 slots for each label and 17 (it only ever has one of 22 sizes), the array of pending references at most 2 entries for each reference and 8; a search, and the search for a free slot, look at no more slots than there are labels, plus one.", "quantifier": "all histories of insertions of labels and of pending references, all outcomes of the allocations, all labels", "why_tests_cant": "Quantifies over all histories and all hash collisions.", "anchors": ["src/symbol_table.c:insert_symbol", "src/symbol_table.c:resize_symbols", "src/symbol_table.c:search_symbol", "src/prime.c:next_prime", "src/forward_reference.c:add_forward_ref"]}
{"id": "C68", "title": "The binary determines the instructions", "statement": "The binary of a program in one block (at most one origin, in front), decoded from its beginning with the documented opcode table, is the list of its instructions in order: mnemonics, modes and operand values. So two programs with the same binary have the same instructions; and the code of a program can be disassembled and assembled again to the same code.", "quantifier": "all programs in one block, without an indexed JMP to a forward label (the F3 defect); values of operands are compared where they fit in 16 bits (a number after a branch: in 8 bits)", "why_tests_cant": "Quantifies over all programs and all pairs of programs.", "anchors": ["src/generator.c:generate_code", "src/generator.c:resolve_forward_ref", "src/opcode.c:get_opcode", "src/main.c:main"]}
{"id": "C69", "title": "The number of allocations is bounded by the source", "statement": "A run calls malloc, calloc and realloc at most 25 times, and 8 times for each line and each 127 characters of the source. What happens to later allocations cannot matter, and a run for which that many allocations succeed is not disturbed and releases everything.", "quantifier": "all sources, file systems and outcomes of the allocations", "why_tests_cant": "Quantifies over all sources and over all patterns of failing allocations.", "anchors": ["src/main.c:main", "src/lexer.c:init_lexer", "src/symbol_table.c:insert_symbol", "src/forward_reference.c:create_forward_ref", "src/forward_reference.c:add_forward_ref"]}
{"id": "C70", "title": "Labels in operands may be written as numbers", "statement": "Replacing any labels in operands of a program that assembles by the numbers they stand for (the value of the label; for a branch, the distance from the next instruction as a byte) changes neither the exit status, nor what is printed, nor the binary, for programs without an indexed JMP whose origins do not move backwards.", "quantifier": "all programs that assemble and all sets of operands to rewrite", "why_tests_cant": "Quantifies over all programs and all subsets of their operands.", "anchors": ["src/generator.c:generate_code", "src/generator.c:resolve_forward_ref", "src/generator.c:resolve_label_ref", "src/parser.c:parse_operand"]}
{"id": "C71", "title": "Spelling and order of the command line do not matter", "statement": "If the options table is followed by an end entry (C44), every command line is handled in one of these ways: words naming exactly one source, with any number of -o F, -oF, --output F, --output=F (or an abbreviation of --output) before or behind it, assemble that source into the last named file, or a.out; words naming no source or several exit with status 64; a request for help, usage or version in front of any mistake prints it with status 0; all other words exit with status 64. In the last three cases no file is touched.", "quantifier": "all sequences of words of the command line", "why_tests_cant": "Quantifies over all command lines: any number, order and spelling of options.", "anchors": ["src/main.c:main", "src/main.c:parse_opt", "src/main.c:options"]}
{"id": "C72", "title": "The place of a constant definition does not matter to lines that do not use it", "statement": "Moving a line \"name = value\" up or down past lines that do not mention the name (and are not .END) does not change the exit status; if the name is not defined in front as well, a successful run gives the same binary and the same report, and a failing run the same message. This holds for any origins, also backward ones, and for branches and jumps in front that refer to the name before its definition.", "quantifier": "all programs, all constant definitions in them and all distances they are moved", "why_tests_cant": "Quantifies over all programs and all pairs of places of the definition.", "anchors": ["src/generator.c:generate_code", "src/generator.c:resolve_label_ref", "src/symbol_table.c:insert_symbol"]}
{"id": "C73", "title": "What every run leaves in the output file", "statement": "After every run, whether it succeeds or fails, the output file holds exactly the result of these writes in this order: the code of the statements in front of the first one in error (a branch or jump to a name not defined yet having first zero bytes at the place where the previous instruction ended and then a zero operand), and, if the program was read to its end, the completed operands in front of the first one that cannot be completed. If the run stops in a line that cannot be read (a lexical error, more than eight tokens, a departure from the grammar), it holds the writes of the lines in front.", "quantifier": "all programs and all places of the first error, all origins (also backward ones)", "why_tests_cant": "Quantifies over all programs, failing or not.", "anchors": ["src/main.c:main", "src/generator.c:write_instruction", "src/forward_reference.c:resolve_forward_ref"]}
{"id": "C74", "title": "The result of every source text", "statement": "Every sequence of bytes is a source with exactly one result, given by a specification with no precondition on the text: the source is read in pieces (a line, at most 127 bytes at a time, a NUL byte hiding the rest of its piece); each piece is a statement of the grammar, or a line with more tokens behind an indexed operand (then the last mnemonic counts, X among them makes the index X, a bracket makes it indirect, # or A leaves no mode), or is rejected with a report (lexical, syntactic or semantic error, with the exact message, line and column), or is dropped without a report (more than eight tokens), or has a byte from $80 to $FE in a token (undefined behaviour). The exit code, the exact text on standard output and the exact contents of the output file follow. In particular the run succeeds, fails silently, or is undefined exactly in the listed cases.", "quantifier": "all source texts of less than 20 million bytes (any bytes, any line lengths, with or without a final newline)", "why_tests_cant": "Quantifies over all byte strings.", "anchors": ["src/main.c:main", "src/lexer.c:lex_line", "src/parser.c:parse_line", "src/generator.c:generate_code", "src/error.c:print_error"]}
{"id": "C75", "title": "The result of every invocation, on a file system with links", "statement": "For every command line and every file system with hard and symbolic links: exactly one of these happens: a requested text is printed; the words are refused with status 64; the source cannot be read; the output cannot be written (status 1, the exact message, nothing changed); or the source is assembled, with exit status, standard output and contents of the output file as C74 says. In all cases no file changes but the one the output name leads to (or the new one at the path it leads to), no link changes and no name starts to lead to another file. If the output leads to the same file as the source, under whatever names, the source is emptied and the run reports a success of 0 bytes; otherwise the source keeps its contents.", "quantifier": "all command lines, all file systems (names, links, permissions, contents of less than 20 million bytes)", "why_tests_cant": "Quantifies over all command lines, file systems and contents.", "anchors": ["src/main.c:main", "src/main.c:parse_opt", "src/error.c:print_error"]}
{"id": "C76", "title": "Running the binary is running the source", "statement": "For every program that is assembled successfully, whose origins never move backwards, that fits in 64 KiB and uses no operand form the assembler gets wrong (C25, C28): a processor that executes the binary, loaded at address 0, from the address of an instruction of the source executes exactly the instructions of the source, step by step: the same mnemonics in the same addressing modes with the operands as written, branches and jumps going to the addresses of their labels, as long as it stays at instructions of the source and the code is not overwritten. This holds whatever the instructions do with their operands.", "quantifier": "all sources, all processors (arbitrary effect of every instruction), all states, all lengths of runs", "why_tests_cant": "Quantifies over all programs, processor states and runs of any length.", "anchors": ["src/main.c:main", "src/generator.c:generate_code", "src/generator.c:resolve_label_ref", "src/generator.c:resolve_forward_ref", "src/parser.c:parse_addr_mode"]}
{"id": "C77", "title": "The output file is bounded by the source", "statement": "For every source text below 20 million bytes, assembled or rejected, with any origins: the output file has at most 65535 + 3 bytes for each line of the source (the lines being cut as gaia reads them: at newlines, and after 127 bytes; so there are at most newlines + length/127 + 1 of them), and every element of it is a byte. The bound is reached.", "quantifier": "all source texts (ill-formed ones included), all file names", "why_tests_cant": "Quantifies over all source texts: a run-away origin or a missing truncation of a location would write a file of any size.", "anchors": ["src/main.c:main", "src/generator.c:generate_code", "src/generator.c:resolve_forward_ref", "src/parser.c:parse_directive"]}
{"id": "C78", "title": "No dependence on stale memory", "statement": "The lexer, the error printer and the code that records forward references work on arrays of bytes: the line buffer, which goes on behind the NUL that fgets stores with whatever was read before, and the 64-byte texts of the tokens, which are used again for every line. Whatever those bytes are at the start and behind every line (also when there are none: the buffer ends with its NUL), no byte outside of an array is read or written and no byte behind the end of a string influences the exit status, the messages or the output file: every run gives the result that depends on the strings alone. The same holds for every single comparison, length, hash and copy of a string.", "quantifier": "all source texts (NUL bytes, overlong and unfinished lines included), all allocation outcomes, all contents of the line buffer behind every line read and all initial contents of the token texts", "why_tests_cant": "Depends on the contents of uninitialised and stale memory, which a test cannot choose; an over-read of one byte goes unnoticed whenever that byte is a zero.", "anchors": ["src/lexer.c:lex_line", "src/lexer.c:token_strncpy", "src/lexer.c:token_strcpy", "src/lexer.c:reset_token", "src/error.c:print_error", "src/forward_reference.c:create_forward_ref", "src/symbol_table.c:djb2_hash", "src/main.c:main"]}
{"id": "C79", "title": "What is printed is unambiguous", "statement": "The text on standard output tells what happened. Two runs that print the same text end with the same exit status, whatever the file names. When both programs are assembled they have the same number of bytes and the same number of labels. When both are rejected with a report for the same file name, the reports are about the same error: the same line number, the same message, the same offset of the arrow (or none in both), and the lines shown are the same but for trailing blanks. A run that ends has exit status 0 exactly when its source is read to its end with all open operands completed, and it prints a report with status 1 exactly when there is an error to blame in a line.", "quantifier": "all pairs of source texts shorter than 20 million bytes and all file names (with colons and newlines, too)", "why_tests_cant": "A statement about pairs of runs: that no two different errors give the same text, for all lines, all tab stops and all line numbers.", "anchors": ["src/main.c:main", "src/error.c:print_error", "src/lexer.c:lex_line", "src/parser.c:parse_line"]}
{"id": "C80", "title": "Running out of memory", "statement": "A run in which allocations fail has one of three outcomes. It ends exactly as with enough memory; or it cannot set up its tables, prints that memory could not be allocated, exits with status 1 and touches no file; or it breaks off in a line that names a label without a value yet: exit status 1, nothing printed, and the output file holds exactly the bytes of the statements in front of that line. A source without labels is assembled in the same way however little memory there is, and a line that gives a value to a label or leaves an operand open is never taken when there is no memory for it.", "quantifier": "all source texts, all file names and file systems, and all answers of malloc, calloc and realloc in every call", "why_tests_cant": "Every call may fail independently: the combinations grow exponentially, and a test cannot enumerate which lines survive which failures.", "anchors": ["src/main.c:main", "src/symbol_table.c:insert_symbol", "src/symbol_table.c:resize_symbols", "src/forward_ref.c:create_forward_ref", "src/forward_ref.c:add_forward_ref"]}
{"id": "C81", "title": "Parts of a program can be assembled separately", "statement": "Take a program whose second part starts with an origin (or at the address where the first part ends) and has no label in common with the first part, and whose origins never move backwards. It is assembled exactly when the two parts are assembled on their own. Its binary is the binary of the first part, continued with that of the second part from there on, and the reported numbers of bytes and of labels are the sums of those of the parts.", "quantifier": "all pairs of programs without a common label, all origins, all spellings of the source texts", "why_tests_cant": "A statement about triples of runs of arbitrary programs: the tables of the two parts share one hash table, one list of open operands and one file.", "anchors": ["src/main.c:main", "src/symbol_table.c:search_symbol", "src/generator.c:resolve_forward_ref"]}
{"id": "C82", "title": "A patch is local", "statement": "Replace a part of a program by another part that ends at the same address and leaves the same labels with the same values. If the program is assembled before and after the change, and no origin moves backwards, then every byte of the binary outside of the addresses of the replaced part is the same in both binaries. Code that refers to the replaced part, in front of it or behind it, does not change.", "quantifier": "all programs, all parts of them and all replacements, whatever their length and number of instructions", "why_tests_cant": "A statement about pairs of runs; the labels and the open operands of the two runs lie at different places in the tables.", "anchors": ["src/main.c:main", "src/generator.c:generate_code", "src/generator.c:resolve_forward_ref"]}
{"id": "C83", "title": "An error after a patch is in the patch", "statement": "Take a program that assembles and replace a part of it by another part which, if it is correct by itself, ends at the same address and leaves the same labels with the same values. If the new program is rejected, the error report names a line of the new part, never a line in front of it or behind it.", "quantifier": "all programs, all parts of them and all replacements", "why_tests_cant": "A statement about pairs of runs: the error may be found while the part is read or only at the end, when the open operands of all three parts are completed.", "anchors": ["src/main.c:main", "src/generator.c:resolve_label_ref", "src/generator.c:resolve_forward_ref", "src/error.c:print_error"]}
{"id": "C84", "title": "Missing labels can be supplied", "statement": "If a program is rejected because a label is not defined anywhere, then lines that define all the missing labels can be added at its end, without other changes; the longer program assembles, or a branch of the original program is reported whose target is too far away. No other error can appear.", "quantifier": "all programs rejected for a missing label, all sets of added definitions", "why_tests_cant": "A statement about pairs of runs over all programs: one missing label hides all the errors behind it.", "anchors": ["src/main.c:main", "src/generator.c:resolve_forward_ref", "src/symbol_table.c:insert_symbol", "src/error.c:print_error"]}
{"id": "C85", "title": "Cutting off the end of a program", "statement": "If a program assembles, every beginning of it (its first lines, cut anywhere) assembles as well, or is rejected with the one message that a label definition was not found, for a line with a branch or a jump whose label is defined in the lines that were cut off. No other error can appear.", "quantifier": "all programs that assemble, all places to cut them", "why_tests_cant": "A statement about pairs of runs over all programs and all cuts.", "anchors": ["src/main.c:main", "src/generator.c:resolve_forward_ref", "src/parser.c:parse_label_operand"]}
{"id": "C86", "title": "Exactly the sources that are handled safely", "statement": "Call a source legible if it has less than 20 million bytes and the assembler, reading it line by line, never comes to a byte from $80 to $FE where a character of a token is expected (behind a semicolon, behind .END and behind an error such bytes do no harm). A source is handled without undefined behaviour, whichever allocations fail, exactly if it is legible. For every legible source: no block is used after it was freed or twice freed, every file opened is closed, all blocks are freed when memory sufficed, no buffer is accessed outside of its bounds, and nothing depends on what uninitialised memory holds.", "quantifier": "all sources, all allocation outcomes, all initial contents of memory", "why_tests_cant": "An equivalence over all inputs and all memory contents; C51 and C78 proved safety for sources with a byte from $80 only in comments, this is the exact boundary.", "anchors": ["src/lexer.c:lex", "src/lexer.c:buffer_lexeme", "src/main.c:main"]}
{"id": "C87", "title": "The command line with POSIXLY_CORRECT", "statement": "If the environment variable POSIXLY_CORRECT is set, options are recognised only in front of the first argument: such a command line runs the assembler on its only argument with the last output file named, asks for a text, or ends with exit status 64 and no file touched. A command line with all its options in front of its arguments means the same with and without the variable; `gaia SOURCE -o FILE` does not: it assembles without the variable and ends with status 64 with it.", "quantifier": "all command lines, all file systems, all allocation outcomes, both settings of the variable", "why_tests_cant": "All command lines; a test runs with one environment.", "anchors": ["src/main.c:main", "src/main.c:parse_opt"]}
{"id": "C88", "title": "Where every byte of the binary comes from", "statement": "For every program that assembles, with whatever origins: the binary ends behind the highest address at which an instruction lies, or the zero bytes that are written for a forward reference at the place where the instruction in front of it ended. The byte at each address of it is the one of the last forward reference lying there; if there is none, the one of the last instruction lying there, unless zero bytes of a later forward reference lie there, which then count; if nothing lies there, a zero.", "quantifier": "all programs that assemble, all addresses", "why_tests_cant": "A statement about every byte of every output, with origins moving in any way.", "anchors": ["src/generator.c:generate_code", "src/generator.c:resolve_forward_ref", "src/main.c:main"]}
{"id": "C89", "title": "Every program can be written, and formatting a source is harmless", "statement": "A source text has at most one meaning as a list of statements. The lists of statements that are the meaning of some source text are exactly those with correct names (at most 63 characters, no mnemonic, no register), 16-bit numbers and documented mnemonics in which no statement is longer than a line of 126 characters (which can only happen with two long labels); a plain formatter writes them. Replacing a correct source by its formatted text changes neither the exit status, the binary nor the summary, nor the line number and message of an error.", "quantifier": "all lists of statements and all source texts with a meaning", "why_tests_cant": "Quantifies over all programs and all their spellings.", "anchors": ["src/lexer.c:lex_line", "src/parser.c:parse_line", "src/main.c:main", "README.md"]}
{"id": "C90", "title": "Inserting or removing code moves the rest of the program as a whole", "statement": "Replace a part of a program by a part of another length (insert instructions, remove them, or change them), without changing the value of a label of that part, or of one in front of it, that the rest of the program refers to. If both programs are assembled and no operand of the code behind the part crosses the boundary between one byte and two, then the code in front of the part keeps its addresses; every statement behind it up to the next .ORG moves by the difference of the lengths and the ones after a .ORG do not move; the labels behind it move with the code they mark; and every instruction keeps its opcode and its size, its operand being changed by exactly the distance its label moves (for a branch: by the difference between that distance and the one the branch itself moves, so a branch that moves together with its target does not change). Without the condition on operands this is false.", "quantifier": "all programs, all parts of them and all replacements, of any length", "why_tests_cant": "A statement about pairs of runs on arbitrarily long programs, with origins, constants and forward references on both sides of the change.", "anchors": ["src/main.c:main", "src/generator.c:generate_code", "src/generator.c:resolve_forward_ref", "src/generator.c:resolve_label_ref"]}
{"id": "C91", "title": "A program may state its addresses", "statement": "Writing the current address as an origin (.ORG a where the next byte would be placed at a), writing a label of its own line as a constant of the address it stands at, and adding an origin behind which nothing is placed any more (only constants, other origins and empty lines up to the end or .END), change neither the exit status, the binary, the number of bytes and symbols reported, nor the message of a failure. This holds for all programs, also with backward origins and open references, correct or not.", "quantifier": "all programs and all places in them", "why_tests_cant": "Quantifies over all programs around the edited line; a relation between two runs.", "anchors": ["src/main.c:main", "src/generator.c:generate_code", "src/parser.c:parse_line"]}
{"id": "C92", "title": "The order of blocks with their own origins does not matter", "statement": "If two neighbouring blocks of code each start with their own .ORG and lie at different addresses, exchanging them in the source changes neither the binary nor the numbers of bytes and symbols reported, whatever the blocks refer to, as long as both programs are assembled.", "quantifier": "all programs and all pairs of neighbouring blocks of any length", "why_tests_cant": "A relation between two runs over all programs; the references between the blocks change their direction.", "anchors": ["src/main.c:main", "src/generator.c:generate_code", "src/generator.c:resolve_forward_ref"]}
{"id": "C93", "title": "The value of a constant reaches the operands that name it, and nothing else", "statement": "If the value of a constant in an assembled program is replaced by another one of the same size, the program is still assembled (unless a branch to the constant gets out of reach); then every statement keeps its address, every other symbol keeps its value, every instruction keeps its opcode byte, and exactly the operands that name the constant change, by the difference of the two values.", "quantifier": "all programs, all constants, all pairs of values of the same size", "why_tests_cant": "A relation between two runs over all programs; a value leaking into an address or into another operand shows only in particular programs.", "anchors": ["src/parser.c:parse_label_declaration", "src/main.c:main", "src/generator.c:generate_code"]}
{"id": "C94", "title": "Any data can be put into the binary", "statement": "The language has no directive for data, but every sequence of bytes of up to 65537 bytes whose beginning is machine code that can be written is the binary of some source: behind the code any bytes may follow. A binary cannot begin with arbitrary bytes: its first byte is an opcode of the table, a zero, or $F3 (the byte written for the undocumented JMP v,X).", "quantifier": "all byte sequences; all sources", "why_tests_cant": "Ranges over all byte sequences and all sources; the data is made of overlapping instructions, so that the order in which the bytes are written matters.", "anchors": ["src/main.c:main", "src/generator.c:generate_code", "src/parser.c:parse_base_tree"]}
{"id": "C95", "title": "After inserting or removing code, only a branch can be out of reach", "statement": "Replace a part of an assembled program by a part of another length, as in C90, where the new part is correct up to its end, defines no label of the rest, and refers to labels that are defined. Then the new program is assembled, or the error reported is a branch to a label that is too far away, at the line of that branch; no other error can appear. It is assembled exactly when the branches of the new part reach their labels, and each branch in front of it or behind it, which keeps its distance unless the part lies between it and its label, reaches it at the new distance, larger or smaller by the change of length. More generally, if the statements of a program can be placed and all labels in use are defined, the only possible error is a branch that is too far away, and the program is assembled exactly when every branch to a label has a distance from -128 to 127 from the end of the branch; and when a constant gets another value of the same size, only a branch to that constant can be.", "quantifier": "all programs and all replacements of any length", "why_tests_cant": "A relation between two runs over all programs; which instructions are affected by an insertion depends on the whole program.", "anchors": ["src/main.c:main", "src/generator.c:resolve_forward_ref", "src/parser.c:parse_label_operand"]}

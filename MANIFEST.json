{
 "claims": [
  {
   "property": "C01",
   "status": "proved",
   "theorems": [
    "C01_opcode_table",
    "C01_no_other_flag",
    "C01_table_complete",
    "C01_opcodes_distinct"
   ],
   "note": ""
  },
  {
   "property": "C02",
   "status": "proved",
   "theorems": [
    "C02_mnemonic_recognition",
    "C02_names_distinct",
    "C02_fifty_six"
   ],
   "note": ""
  },
  {
   "property": "C03",
   "status": "partial",
   "theorems": [
    "C03_literal_value",
    "C03_too_big_partial",
    "C03_exact_rule",
    "C03_refuted"
   ],
   "note": "False for literals of value >= 2^64 (C03_refuted: the accumulator wraps); C03_exact_rule is the exact rule for every literal."
  },
  {
   "property": "C04",
   "status": "proved",
   "theorems": [
    "C04_missing_digit",
    "C04_bad_digit"
   ],
   "note": ""
  },
  {
   "property": "C05",
   "status": "proved",
   "theorems": [
    "C05_label_whole",
    "C05_all_significant",
    "C05_too_long",
    "C05_no_overrun"
   ],
   "note": ""
  },
  {
   "property": "C09",
   "status": "proved",
   "theorems": [
    "C09_lexing_is_local",
    "C09_eight_tokens_kept"
   ],
   "note": ""
  },
  {
   "property": "C10",
   "status": "proved",
   "theorems": [
    "C10_tokens_exact",
    "C10_too_many_rejected",
    "C10_outcomes"
   ],
   "note": ""
  },
  {
   "property": "C12",
   "status": "proved",
   "theorems": [
    "C12_rejected",
    "C12_accepted"
   ],
   "note": ""
  },
  {
   "property": "C13",
   "status": "partial",
   "theorems": [
    "C13_accepted",
    "C13_rejected_partial",
    "C13_refuted"
   ],
   "note": "False for JMP LABEL,X and JMP LABEL,Y (C13_refuted); proved for every other form."
  },
  {
   "property": "C14",
   "status": "proved",
   "theorems": [
    "C14_found",
    "C14_not_found",
    "C14_count"
   ],
   "note": "For every history of insertions of distinct labels, including insertions that fail for lack of memory."
  },
  {
   "property": "C15",
   "status": "proved",
   "theorems": [
    "C15_search_returns",
    "C15_insert_returns",
    "C15_load",
    "C15_limit"
   ],
   "note": "Up to 21474836 labels; from there on the load computation overflows an int (C15_limit)."
  },
  {
   "property": "C16",
   "status": "proved",
   "theorems": [
    "C16_next_prime",
    "C16_is_prime",
    "C16_growth",
    "C16_float_sqrt",
    "C16_loop_test"
   ],
   "note": "The last two justify the integer square root of the model against IEEE-754 binary64; they rest on the axioms of the standard library of real numbers."
  },
  {
   "property": "C17",
   "status": "proved",
   "theorems": [
    "C17_value_kept",
    "C17_redefinition"
   ],
   "note": ""
  },
  {
   "property": "C18",
   "status": "proved",
   "theorems": [
    "C18_label_value",
    "C18_no_other_label",
    "C18_next_code"
   ],
   "note": ""
  },
  {
   "property": "C19",
   "status": "proved",
   "theorems": [
    "C19_illegal_forward",
    "C19_undefined_fails",
    "C19_not_found"
   ],
   "note": ""
  },
  {
   "property": "C20",
   "status": "proved",
   "theorems": [
    "C20_resolved"
   ],
   "note": ""
  },
  {
   "property": "C21",
   "status": "proved",
   "theorems": [
    "C21_contents",
    "C21_add_returns",
    "C21_freed"
   ],
   "note": "For every history of additions, including failed ones."
  },
  {
   "property": "C22",
   "status": "proved",
   "theorems": [
    "C22_too_far",
    "C22_in_range",
    "C22_forward_too_far",
    "C22_success",
    "C22_offset"
   ],
   "note": ""
  },
  {
   "property": "C24",
   "status": "proved",
   "theorems": [
    "C24_counter"
   ],
   "note": ""
  },
  {
   "property": "C25",
   "status": "partial",
   "theorems": [
    "C25_documented_partial",
    "C25_refuted",
    "C43_exact"
   ],
   "note": "False for JMP LABEL,X / JMP LABEL,Y to a later label, which emit $F3 (C25_refuted); proved without it. C43_exact: exactly these have an undocumented opcode or operand bytes that do not fit."
  },
  {
   "property": "C26",
   "status": "partial",
   "theorems": [
    "C26_as_built",
    "C26_agreement_partial",
    "C26_refuted_image",
    "C26_refuted_accepts"
   ],
   "note": "C26_as_built is exact for every program; agreement with the documented rules holds for programs without backward .ORG and JMP LABEL,X and is refuted beyond."
  },
  {
   "property": "C27",
   "status": "partial",
   "theorems": [
    "C27_ascending_partial",
    "C27_no_forward_partial",
    "C27_kept_partial",
    "C27_refuted_zeros",
    "C27_refuted_patch",
    "C88_bytes"
   ],
   "note": "False when the origin moves backwards and there are forward references; proved otherwise, C88_bytes says exactly which byte is kept at every address."
  },
  {
   "property": "C28",
   "status": "partial",
   "theorems": [
    "C28_not_truncated_partial",
    "C28_refuted",
    "C43_exact"
   ],
   "note": "False for branches with a literal above $FF (C28_refuted); C43_exact is the exact condition."
  },
  {
   "property": "C29",
   "status": "partial",
   "theorems": [
    "C29_bound_partial",
    "C29_refuted",
    "C88_length"
   ],
   "note": "False: the address counter is never checked (C29_refuted). C88_length is the exact length of every binary."
  },
  {
   "property": "C32",
   "status": "partial",
   "theorems": [
    "C32_reported_partial",
    "C32_refuted",
    "C74_silent"
   ],
   "note": "False for lines of more than eight tokens, which fail silently; C74_silent: these are the only silent failures."
  },
  {
   "property": "C34",
   "status": "partial",
   "theorems": [
    "C34_lines_partial",
    "C34_refuted",
    "C74_pieces",
    "C74_result"
   ],
   "note": "False for lines of 127 characters and more. C74_pieces and C74_result say what happens to them: they are cut into pieces of 127 bytes, each read as a line."
  },
  {
   "property": "C35",
   "status": "proved",
   "theorems": [
    "C35_summary"
   ],
   "note": ""
  },
  {
   "property": "C36",
   "status": "proved",
   "theorems": [
    "C36_terminates"
   ],
   "note": ""
  },
  {
   "property": "C37",
   "status": "proved",
   "theorems": [
    "C37_defined",
    "C37_ascii",
    "C37_main"
   ],
   "note": ""
  },
  {
   "property": "C38",
   "status": "partial",
   "theorems": [
    "C38_high_byte_undefined",
    "C38_refuted",
    "C38_comments_partial",
    "C74_undefined"
   ],
   "note": "False: isalpha is called with a negative value (C38_refuted); harmless in comments. C74_undefined: the exact condition for a source."
  },
  {
   "property": "C39",
   "status": "proved",
   "theorems": [
    "C39_memory",
    "C39_main"
   ],
   "note": ""
  },
  {
   "property": "C40",
   "status": "partial",
   "theorems": [
    "C40_refuted",
    "C40_others_partial",
    "C73_file"
   ],
   "note": "False: a failed assembly leaves the bytes written so far (C40_refuted); C73_file says exactly which."
  },
  {
   "property": "C41",
   "status": "partial",
   "theorems": [
    "C41_refuted",
    "C41_source_kept_partial",
    "C75_same_file",
    "C75_kept"
   ],
   "note": "False when the output name leads to the source file; C75_same_file and C75_kept are the exact condition, with links."
  },
  {
   "property": "C42",
   "status": "proved",
   "theorems": [
    "C42_no_source",
    "C42_no_output"
   ],
   "note": ""
  },
  {
   "property": "C43",
   "status": "partial",
   "theorems": [
    "C43_disassembles_partial",
    "C43_exact",
    "C43_refuted"
   ],
   "note": "False for operands that do not fit (C43_refuted; see C25, C28, C29). C43_exact is the exact condition: an instruction can be read back from its bytes if and only if its operand fits."
  },
  {
   "property": "C06",
   "status": "proved",
   "theorems": [
    "C06_case"
   ],
   "note": ""
  },
  {
   "property": "C07",
   "status": "partial",
   "theorems": [
    "C07_comments_partial",
    "C07_refuted"
   ],
   "note": "False for lines longer than the 127-byte buffer (C07_refuted): the rest of a long comment is assembled. Proved for every line that fits."
  },
  {
   "property": "C08",
   "status": "proved",
   "theorems": [
    "C08_blanks",
    "C08_needs_blank"
   ],
   "note": "Also where the blank may be dropped entirely (around brackets and commas, behind punctuation); C08_needs_blank shows the place where it may not."
  },
  {
   "property": "C31",
   "status": "proved",
   "theorems": [
    "C31_spellings"
   ],
   "note": ""
  },
  {
   "property": "C30",
   "status": "proved",
   "theorems": [
    "C30_end"
   ],
   "note": "For any allocation behaviour, not only with enough memory."
  },
  {
   "property": "C23",
   "status": "proved",
   "theorems": [
    "C23_generate",
    "C23_patch_jump",
    "C23_patch_branch",
    "C23_little_endian"
   ],
   "note": "The code generator in isolation, on any file content; C12_accepted, C25 say the same of whole lines."
  },
  {
   "property": "C11",
   "status": "partial",
   "theorems": [
    "C11_grammar_partial",
    "C11_refuted"
   ],
   "note": "False as documented: anything may stand behind an operand indexed with X or Y (C11_refuted). Proved for all other lines; exactly that form is accepted besides the grammar."
  },
  {
   "property": "C33",
   "status": "proved",
   "theorems": [
    "C33_arrow",
    "C11_grammar_partial",
    "C45_syntax_error",
    "C46_lexical_error",
    "C22_too_far"
   ],
   "note": "C33_arrow is the reporting function; the other theorems say which offset each report is about."
  },
  {
   "property": "C45",
   "status": "proved",
   "theorems": [
    "C45_syntax_error",
    "C45_one_place"
   ],
   "note": ""
  },
  {
   "property": "C46",
   "status": "proved",
   "theorems": [
    "C46_lexical_error"
   ],
   "note": ""
  },
  {
   "property": "C44",
   "status": "partial",
   "theorems": [
    "C44_refuted",
    "C44_needs_end"
   ],
   "note": "False: the options[] array handed to argp has no terminating {0} entry, so the library's scan leaves the array on every command line."
  },
  {
   "property": "C47",
   "status": "proved",
   "theorems": [
    "C47_source",
    "C47_usage"
   ],
   "note": "The command-line callback, driven by any sequence of keys the library may deliver."
  },
  {
   "property": "C48",
   "status": "proved",
   "theorems": [
    "C48_rename"
   ],
   "note": "Labels are the tokens of Spec_Text; sources up to 20,000,000 bytes whose lines have at most 126 characters. Lines without a token sequence are kept as they are."
  },
  {
   "property": "C49",
   "status": "proved",
   "theorems": [
    "C49_insert"
   ],
   "note": "The text behind the insertion may be any bytes; sources up to 20,000,000 bytes."
  },
  {
   "property": "C50",
   "status": "proved",
   "theorems": [
    "C50_constants"
   ],
   "note": "Branches are excluded: a number after a branch is the offset itself (C28)."
  },
  {
   "property": "C51",
   "status": "proved",
   "theorems": [
    "C51_memory",
    "C51_success",
    "C51_refuted"
   ],
   "note": "main_h (Model_Memory.v) performs every malloc, calloc, realloc, free, fopen and fclose of the program on an explicit heap; an arbitrary oracle decides each allocation. Blocks do stay allocated at exit when an allocation failed (C51_refuted), which the statement leaves open."
  },
  {
   "property": "C52",
   "status": "proved",
   "theorems": [
    "C52_history",
    "C52_decided",
    "C52_first"
   ],
   "note": "Lines of at most 126 characters; the text behind is arbitrary."
  },
  {
   "property": "C53",
   "status": "proved",
   "theorems": [
    "C53_only_output",
    "C53_function_of_source",
    "C53_again"
   ],
   "note": "C53_again needs different names for source and output."
  },
  {
   "property": "C54",
   "status": "proved",
   "theorems": [
    "C54_line_ends",
    "C54_last_newline"
   ],
   "note": ""
  },
  {
   "property": "C55",
   "status": "proved",
   "theorems": [
    "C55_own_line",
    "C55_two_origins"
   ],
   "note": "Programs are the statement lists of Spec_Prog that the source means; sources up to 20,000,000 bytes."
  },
  {
   "property": "C56",
   "status": "proved",
   "theorems": [
    "C56_unused"
   ],
   "note": "As C55."
  },
  {
   "property": "C57",
   "status": "proved",
   "theorems": [
    "C57_hoist",
    "C57_indexed_jump",
    "C57_backwards"
   ],
   "note": "C57_indexed_jump, C57_backwards: the exception and the condition on the origins in the statement are needed."
  },
  {
   "property": "C58",
   "status": "proved",
   "theorems": [
    "C58_relocate",
    "C58_position_independent"
   ],
   "note": "The shape of the change is the inductive relation relocated of Spec_Edit.v."
  },
  {
   "property": "C59",
   "status": "proved",
   "theorems": [
    "C59_append"
   ],
   "note": ""
  },
  {
   "property": "C60",
   "status": "proved",
   "theorems": [
    "C60_other_files",
    "C60_rerun",
    "C60_unfinished",
    "C60_not_atomic",
    "C60_buffered",
    "C60_killed",
    "C60_flushed"
   ],
   "note": "Model_Io.v, Spec_Buffer.v. The bytes may wait in the buffer of the C library for any time (C60_buffered); assumes that the library and the operating system store them in the order of the calls; for C60_unfinished and the buffer no call fails."
  },
  {
   "property": "C61",
   "status": "partial",
   "theorems": [
    "C61_unnoticed_partial",
    "C61_no_fault",
    "C61_refuted"
   ],
   "note": "FALSE of the code: no result of fputc, fseek and fclose is looked at (C61_refuted: on a full disk, exit status 0 and an empty output file). Proved: status, printed text and all other files are the same whatever calls fail, and without failing calls the file is the binary of Model_Main."
  },
  {
   "property": "C62",
   "status": "partial",
   "theorems": [
    "C62_truncated_partial",
    "C62_read_part",
    "C62_refuted"
   ],
   "note": "FALSE of the code: a failing fgets is taken for the end of the file (C62_refuted; a directory given as source is assembled as an empty program). Proved: the run is exactly that of a source that ends where the reading failed."
  },
  {
   "property": "C63",
   "status": "proved",
   "theorems": [
    "C63_source_name",
    "C63_file_names"
   ],
   "note": "Without memory failures."
  },
  {
   "property": "C64",
   "status": "proved",
   "theorems": [
    "C64_parallel",
    "C64_other_files",
    "C64_progress",
    "C64_same_output"
   ],
   "note": "Model_Sched.v: a step is one fopen, one turn of the line loop or one turn of the reference loop, on the files as they are at that moment."
  },
  {
   "property": "C65",
   "status": "proved",
   "theorems": [
    "C65_round_trip"
   ],
   "note": "The disassembler is in Spec_Listing.v and uses the opcode table of the specification only."
  },
  {
   "property": "C66",
   "status": "partial",
   "theorems": [
    "C66_writable_partial",
    "C66_unwritable",
    "C66_refuted"
   ],
   "note": "FALSE of the code: an absolute operand below $100 cannot be written, the shorter mode is taken; LDA $0010,Y, which has no zero-page form, is refused (C66_refuted). Proved: every other instruction can be written (C66_writable_partial with C65_round_trip), and no source gives one of these (C66_unwritable, labels up to $FFFF)."
  },
  {
   "property": "C67",
   "status": "proved",
   "theorems": [
    "C67_table",
    "C67_refs",
    "C67_search",
    "C67_probe"
   ],
   "note": "search_loop n and probe_free n look at one slot and at up to n more."
  },
  {
   "property": "C68",
   "status": "proved",
   "theorems": [
    "C68_decoded",
    "C68_same_binary",
    "C68_again"
   ],
   "note": "Programs with an indexed JMP are excluded (they give $F3, C25); C68_again is for labels up to $FFFF and code up to 1 million bytes."
  },
  {
   "property": "C69",
   "status": "proved",
   "theorems": [
    "C69_calls",
    "C69_enough",
    "C69_undisturbed"
   ],
   "note": "C69_undisturbed is for ASCII sources below 20 million bytes."
  },
  {
   "property": "C70",
   "status": "proved",
   "theorems": [
    "C70_numbers",
    "C70_indexed_jump",
    "C70_origins"
   ],
   "note": "C70_indexed_jump and C70_origins show that both conditions are needed."
  },
  {
   "property": "C71",
   "status": "proved",
   "theorems": [
    "C71_run",
    "C71_usage",
    "C71_request",
    "C71_otherwise",
    "C71_one_meaning"
   ],
   "note": "Model_Argv.v has the part of glibc's argp and getopt_long that the call in main uses. Assumes what C44 refutes of the source text: that the array is followed by an end entry."
  },
  {
   "property": "C72",
   "status": "proved",
   "theorems": [
    "C72_move",
    "C72_status",
    "C72_needed"
   ],
   "note": "C72_needed: a line that mentions the name cannot be passed."
  },
  {
   "property": "C73",
   "status": "proved",
   "theorems": [
    "C73_file",
    "C73_unreadable"
   ],
   "note": "The exact contents C40 speaks about, for every program."
  },
  {
   "property": "C74",
   "status": "proved",
   "theorems": [
    "C74_result",
    "C74_total",
    "C74_unique",
    "C74_pieces",
    "C74_success",
    "C74_silent",
    "C74_undefined"
   ],
   "note": "A total and unambiguous specification of every run: no hypothesis on the source but its size."
  },
  {
   "property": "C75",
   "status": "proved",
   "theorems": [
    "C75_process",
    "C75_others",
    "C75_same_file",
    "C75_kept",
    "C75_plain"
   ],
   "note": "For an options table with its end entry (C44). C75_plain: without links the model is the one the other properties use."
  },
  {
   "property": "C76",
   "status": "proved",
   "theorems": [
    "C76_instruction",
    "C76_step",
    "C76_runs"
   ],
   "note": "The processor is a record with arbitrary states and arbitrary effects of the instructions; only fetching and decoding (Spec_Isa.decode) are fixed."
  },
  {
   "property": "C77",
   "status": "proved",
   "theorems": [
    "C77_size",
    "C77_pieces"
   ],
   "note": "For every source text, by C74; C77_case reaches the bound."
  },
  {
   "property": "C78",
   "status": "proved",
   "theorems": [
    "C78_run",
    "C78_defined",
    "C78_print",
    "C78_strings"
   ],
   "note": "For the model of Model_Raw.v, on arrays with indices; C78_case runs it in two memories. The parser, the symbol table and the generator get the strings of the arrays (they use strcmp, strlen, djb2_hash and memcpy on them only: C78_strings)."
  },
  {
   "property": "C79",
   "status": "proved",
   "theorems": [
    "C79_status",
    "C79_success",
    "C79_report",
    "C79_tells"
   ],
   "note": "Over the ways of C74. C79_case: two sources, one report; C79_success_case: two programs, one success text."
  },
  {
   "property": "C80",
   "status": "proved",
   "theorems": [
    "C80_memory",
    "C80_no_labels",
    "C80_asks",
    "C80_start",
    "C80_process",
    "C80_disk"
   ],
   "note": "C80_process speaks of the program with a heap (each single allocation answers as it likes); the others of the run of main.c. C80_case: the second line has a new label and an open operand."
  },
  {
   "property": "C81",
   "status": "proved",
   "theorems": [
    "C81_separate",
    "C81_follows"
   ],
   "note": "Both parts without .END in front; C81_case, C81_follows_case."
  },
  {
   "property": "C82",
   "status": "proved",
   "theorems": [
    "C82_patch"
   ],
   "note": "memory_of reads a binary as zero behind its end. C82_case: a jump replaced by two instructions."
  },
  {
   "property": "C83",
   "status": "proved",
   "theorems": [
    "C83_blame"
   ],
   "note": "With C82: a patch that keeps its place and its labels changes nothing outside of it. C83_case: a patch with a missing label."
  },
  {
   "property": "C84",
   "status": "proved",
   "theorems": [
    "C84_supply"
   ],
   "note": "plain_definition: a line that only defines a label. C84_case: a label and a constant supplied."
  },
  {
   "property": "C85",
   "status": "proved",
   "theorems": [
    "C85_cut"
   ],
   "note": "With C59 for the bytes of the beginning. C85_case: a jump whose target is cut off."
  },
  {
   "property": "C86",
   "status": "proved",
   "theorems": [
    "C86_exact",
    "C86_memory",
    "C86_buffers",
    "C86_comments",
    "C86_ascii"
   ],
   "note": "Extends C51 and C78 to the exact class of sources. C86_case: such a byte in a comment and another one behind .END; C86_not: the second one is reached."
  },
  {
   "property": "C87",
   "status": "proved",
   "theorems": [
    "C87_run",
    "C87_usage",
    "C87_request",
    "C87_otherwise",
    "C87_portable",
    "C87_portable_request",
    "C87_order_matters"
   ],
   "note": "As C71, with the ordering REQUIRE_ORDER of getopt. Assumes, as C71 does, that the array of options is followed by an end entry (C44)."
  },
  {
   "property": "C88",
   "status": "proved",
   "theorems": [
    "C88_length",
    "C88_bytes"
   ],
   "note": "Completes C20, C27 and C29: which of several bytes for one address is kept, and how long the file is. C88_case: a program with bytes of all four causes."
  },
  {
   "property": "C89",
   "status": "proved",
   "theorems": [
    "C89_written",
    "C89_exact",
    "C89_format",
    "C89_one_meaning"
   ],
   "note": "C89_exact also shows that the hypothesis program_means of other theorems is met by every legal program. C89_case: a program and its formatted text; C89_too_long: two labels of 61 characters do not fit on a line."
  },
  {
   "property": "C90",
   "status": "proved",
   "theorems": [
    "C90_shift"
   ],
   "note": "C90_case: an instruction in the middle is replaced by two, with a jump, branches and a load that refer across it and an .ORG behind it. C90_crossing: lda L at 255 becomes longer when it moves to 256, so the condition on sizes is needed."
  },
  {
   "property": "C91",
   "status": "proved",
   "theorems": [
    "C91_origin",
    "C91_constant",
    "C91_last_origin"
   ],
   "note": "With C55_own_line also for a label in front of an instruction. C91_case: one program with a reference to a later label, edited in the three ways."
  },
  {
   "property": "C92",
   "status": "partial",
   "theorems": [
    "C92_blocks_partial",
    "C92_refuted"
   ],
   "note": "FALSE of the code when an origin moves backwards and a later label is referred to: zeros are written behind the block in front (C92_refuted, three bytes more). Proved when in each of the two orders the origins ascend or no operand refers to a later label; references between the blocks are allowed (C92_case)."
  },
  {
   "property": "C93",
   "status": "proved",
   "theorems": [
    "C93_value",
    "C93_still"
   ],
   "note": "The edited program is assembled unless a branch names the constant (C93_still; C93_branch shows that a branch may get out of reach). twin (Spec_Shift.v): the same opcode byte at the same address, the operand moved by the difference where it names the constant. The condition on the sizes is necessary (C93_crossing: 255 and 256 choose different addressing modes)."
  },
  {
   "property": "C94",
   "status": "proved",
   "theorems": [
    "C94_data",
    "C94_first"
   ],
   "note": "The source is written down in Spec_Data.v (with_data): each byte as the operand of LDA #d one address in front of it, the last one first, then the code, which the disassembler of C65 writes. The first byte of every binary is characterised by C94_first."
  },
  {
   "property": "C95",
   "status": "proved",
   "theorems": [
    "C95_reach",
    "C95_exactly",
    "C95_insert",
    "C95_crossing",
    "C95_constant"
   ],
   "note": "C95_constant: after another value of a constant only a branch to that constant can be reported (C93_branch). C95_exactly_case: a branch over 127 bytes is assembled, over 128 it is not. C95_crossing has the hypotheses of C95_insert; label_shift and place_shift are the words of C90 for the changes of a label and of a place. C95_case: 128 instructions inserted between a branch and its target, which is then reported. keeps_size is the condition of C90 on operands that cross the boundary between one byte and two."
  }
 ]
}
(** Audit.v -- generated by tools/audit.py: what each claimed theorem rests on.  Every line
    of the output must read "Closed under the global context", or name axioms of the
    standard library. *)
From Verif Require Proof_Sqrt Prop_Again Prop_Alloc Prop_Args Prop_Argv Prop_Blame Prop_Blocks Prop_Bound Prop_Buffer Prop_Bytes Prop_Change Prop_Code Prop_Const Prop_Cost Prop_Cpu Prop_Crash Prop_Data Prop_Decode Prop_Edit Prop_End Prop_Ends Prop_Exact Prop_Explicit Prop_History Prop_Isa Prop_Join Prop_Left Prop_Lexer Prop_Lines Prop_Listing Prop_Memory Prop_Move Prop_Names Prop_Numbers Prop_Oom Prop_Order Prop_Patch Prop_Posix Prop_Prefix Prop_Process Prop_Program Prop_Raw Prop_Reach Prop_Run Prop_Safe Prop_Same Prop_Sched Prop_Shift Prop_State Prop_Supply Prop_Syntax Prop_Table Prop_Told Prop_Total Prop_Unit Prop_Write.

Print Assumptions Prop_Isa.C01_opcode_table.
Print Assumptions Prop_Isa.C01_no_other_flag.
Print Assumptions Prop_Isa.C01_table_complete.
Print Assumptions Prop_Isa.C01_opcodes_distinct.
Print Assumptions Prop_Isa.C02_mnemonic_recognition.
Print Assumptions Prop_Isa.C02_names_distinct.
Print Assumptions Prop_Isa.C02_fifty_six.
Print Assumptions Prop_Lexer.C03_literal_value.
Print Assumptions Prop_Lexer.C03_too_big_partial.
Print Assumptions Prop_Lexer.C03_exact_rule.
Print Assumptions Prop_Lexer.C03_refuted.
Print Assumptions Prop_Lexer.C04_missing_digit.
Print Assumptions Prop_Lexer.C04_bad_digit.
Print Assumptions Prop_Lexer.C05_label_whole.
Print Assumptions Prop_Lexer.C05_all_significant.
Print Assumptions Prop_Lexer.C05_too_long.
Print Assumptions Prop_Lexer.C05_no_overrun.
Print Assumptions Prop_Lexer.C09_lexing_is_local.
Print Assumptions Prop_Lexer.C09_eight_tokens_kept.
Print Assumptions Prop_Lexer.C10_tokens_exact.
Print Assumptions Prop_Lexer.C10_too_many_rejected.
Print Assumptions Prop_Lexer.C10_outcomes.
Print Assumptions Prop_Lines.C12_rejected.
Print Assumptions Prop_Lines.C12_accepted.
Print Assumptions Prop_Lines.C13_accepted.
Print Assumptions Prop_Lines.C13_rejected_partial.
Print Assumptions Prop_Lines.C13_refuted.
Print Assumptions Prop_Table.C14_found.
Print Assumptions Prop_Table.C14_not_found.
Print Assumptions Prop_Table.C14_count.
Print Assumptions Prop_Table.C15_search_returns.
Print Assumptions Prop_Table.C15_insert_returns.
Print Assumptions Prop_Table.C15_load.
Print Assumptions Prop_Table.C15_limit.
Print Assumptions Prop_Table.C16_next_prime.
Print Assumptions Prop_Table.C16_is_prime.
Print Assumptions Prop_Table.C16_growth.
Print Assumptions Proof_Sqrt.C16_float_sqrt.
Print Assumptions Proof_Sqrt.C16_loop_test.
Print Assumptions Prop_State.C17_value_kept.
Print Assumptions Prop_State.C17_redefinition.
Print Assumptions Prop_State.C18_label_value.
Print Assumptions Prop_State.C18_no_other_label.
Print Assumptions Prop_Code.C18_next_code.
Print Assumptions Prop_Lines.C19_illegal_forward.
Print Assumptions Prop_Lines.C19_undefined_fails.
Print Assumptions Prop_Lines.C19_not_found.
Print Assumptions Prop_Code.C20_resolved.
Print Assumptions Prop_Table.C21_contents.
Print Assumptions Prop_Table.C21_add_returns.
Print Assumptions Prop_Table.C21_freed.
Print Assumptions Prop_Lines.C22_too_far.
Print Assumptions Prop_Lines.C22_in_range.
Print Assumptions Prop_Lines.C22_forward_too_far.
Print Assumptions Prop_Lines.C22_success.
Print Assumptions Prop_Unit.C22_offset.
Print Assumptions Prop_State.C24_counter.
Print Assumptions Prop_Program.C25_documented_partial.
Print Assumptions Prop_Program.C25_refuted.
Print Assumptions Prop_Exact.C43_exact.
Print Assumptions Prop_Program.C26_as_built.
Print Assumptions Prop_Program.C26_agreement_partial.
Print Assumptions Prop_Program.C26_refuted_image.
Print Assumptions Prop_Program.C26_refuted_accepts.
Print Assumptions Prop_Code.C27_ascending_partial.
Print Assumptions Prop_Code.C27_no_forward_partial.
Print Assumptions Prop_Code.C27_kept_partial.
Print Assumptions Prop_Code.C27_refuted_zeros.
Print Assumptions Prop_Code.C27_refuted_patch.
Print Assumptions Prop_Bytes.C88_bytes.
Print Assumptions Prop_Code.C28_not_truncated_partial.
Print Assumptions Prop_Code.C28_refuted.
Print Assumptions Prop_Code.C29_bound_partial.
Print Assumptions Prop_Code.C29_refuted.
Print Assumptions Prop_Bytes.C88_length.
Print Assumptions Prop_Run.C32_reported_partial.
Print Assumptions Prop_Run.C32_refuted.
Print Assumptions Prop_Total.C74_silent.
Print Assumptions Prop_Run.C34_lines_partial.
Print Assumptions Prop_Run.C34_refuted.
Print Assumptions Prop_Total.C74_pieces.
Print Assumptions Prop_Total.C74_result.
Print Assumptions Prop_Program.C35_summary.
Print Assumptions Prop_Run.C36_terminates.
Print Assumptions Prop_Run.C37_defined.
Print Assumptions Prop_Run.C37_ascii.
Print Assumptions Prop_Run.C37_main.
Print Assumptions Prop_Run.C38_high_byte_undefined.
Print Assumptions Prop_Run.C38_refuted.
Print Assumptions Prop_Run.C38_comments_partial.
Print Assumptions Prop_Total.C74_undefined.
Print Assumptions Prop_Run.C39_memory.
Print Assumptions Prop_Run.C39_main.
Print Assumptions Prop_Run.C40_refuted.
Print Assumptions Prop_Run.C40_others_partial.
Print Assumptions Prop_Left.C73_file.
Print Assumptions Prop_Run.C41_refuted.
Print Assumptions Prop_Run.C41_source_kept_partial.
Print Assumptions Prop_Process.C75_same_file.
Print Assumptions Prop_Process.C75_kept.
Print Assumptions Prop_Run.C42_no_source.
Print Assumptions Prop_Run.C42_no_output.
Print Assumptions Prop_Code.C43_disassembles_partial.
Print Assumptions Prop_Exact.C43_refuted.
Print Assumptions Prop_Same.C06_case.
Print Assumptions Prop_Same.C07_comments_partial.
Print Assumptions Prop_Same.C07_refuted.
Print Assumptions Prop_Same.C08_blanks.
Print Assumptions Prop_Same.C08_needs_blank.
Print Assumptions Prop_Same.C31_spellings.
Print Assumptions Prop_End.C30_end.
Print Assumptions Prop_Unit.C23_generate.
Print Assumptions Prop_Unit.C23_patch_jump.
Print Assumptions Prop_Unit.C23_patch_branch.
Print Assumptions Prop_Unit.C23_little_endian.
Print Assumptions Prop_Syntax.C11_grammar_partial.
Print Assumptions Prop_Syntax.C11_refuted.
Print Assumptions Prop_Syntax.C33_arrow.
Print Assumptions Prop_Syntax.C45_syntax_error.
Print Assumptions Prop_Syntax.C46_lexical_error.
Print Assumptions Prop_Syntax.C45_one_place.
Print Assumptions Prop_Args.C44_refuted.
Print Assumptions Prop_Args.C44_needs_end.
Print Assumptions Prop_Args.C47_source.
Print Assumptions Prop_Args.C47_usage.
Print Assumptions Prop_Change.C48_rename.
Print Assumptions Prop_Change.C49_insert.
Print Assumptions Prop_Change.C50_constants.
Print Assumptions Prop_Memory.C51_memory.
Print Assumptions Prop_Memory.C51_success.
Print Assumptions Prop_Memory.C51_refuted.
Print Assumptions Prop_History.C52_history.
Print Assumptions Prop_History.C52_decided.
Print Assumptions Prop_History.C52_first.
Print Assumptions Prop_Again.C53_only_output.
Print Assumptions Prop_Again.C53_function_of_source.
Print Assumptions Prop_Again.C53_again.
Print Assumptions Prop_Ends.C54_line_ends.
Print Assumptions Prop_Ends.C54_last_newline.
Print Assumptions Prop_Edit.C55_own_line.
Print Assumptions Prop_Edit.C55_two_origins.
Print Assumptions Prop_Edit.C56_unused.
Print Assumptions Prop_Move.C57_hoist.
Print Assumptions Prop_Move.C57_indexed_jump.
Print Assumptions Prop_Move.C57_backwards.
Print Assumptions Prop_Move.C58_relocate.
Print Assumptions Prop_Move.C58_position_independent.
Print Assumptions Prop_Move.C59_append.
Print Assumptions Prop_Crash.C60_other_files.
Print Assumptions Prop_Crash.C60_rerun.
Print Assumptions Prop_Crash.C60_unfinished.
Print Assumptions Prop_Crash.C60_not_atomic.
Print Assumptions Prop_Buffer.C60_buffered.
Print Assumptions Prop_Buffer.C60_killed.
Print Assumptions Prop_Buffer.C60_flushed.
Print Assumptions Prop_Crash.C61_unnoticed_partial.
Print Assumptions Prop_Crash.C61_no_fault.
Print Assumptions Prop_Crash.C61_refuted.
Print Assumptions Prop_Crash.C62_truncated_partial.
Print Assumptions Prop_Crash.C62_read_part.
Print Assumptions Prop_Crash.C62_refuted.
Print Assumptions Prop_Names.C63_source_name.
Print Assumptions Prop_Names.C63_file_names.
Print Assumptions Prop_Sched.C64_parallel.
Print Assumptions Prop_Sched.C64_other_files.
Print Assumptions Prop_Sched.C64_progress.
Print Assumptions Prop_Sched.C64_same_output.
Print Assumptions Prop_Listing.C65_round_trip.
Print Assumptions Prop_Listing.C66_writable_partial.
Print Assumptions Prop_Listing.C66_unwritable.
Print Assumptions Prop_Listing.C66_refuted.
Print Assumptions Prop_Cost.C67_table.
Print Assumptions Prop_Cost.C67_refs.
Print Assumptions Prop_Cost.C67_search.
Print Assumptions Prop_Cost.C67_probe.
Print Assumptions Prop_Decode.C68_decoded.
Print Assumptions Prop_Decode.C68_same_binary.
Print Assumptions Prop_Decode.C68_again.
Print Assumptions Prop_Alloc.C69_calls.
Print Assumptions Prop_Alloc.C69_enough.
Print Assumptions Prop_Alloc.C69_undisturbed.
Print Assumptions Prop_Numbers.C70_numbers.
Print Assumptions Prop_Numbers.C70_indexed_jump.
Print Assumptions Prop_Numbers.C70_origins.
Print Assumptions Prop_Argv.C71_run.
Print Assumptions Prop_Argv.C71_usage.
Print Assumptions Prop_Argv.C71_request.
Print Assumptions Prop_Argv.C71_otherwise.
Print Assumptions Prop_Argv.C71_one_meaning.
Print Assumptions Prop_Order.C72_move.
Print Assumptions Prop_Order.C72_status.
Print Assumptions Prop_Order.C72_needed.
Print Assumptions Prop_Left.C73_unreadable.
Print Assumptions Prop_Total.C74_total.
Print Assumptions Prop_Total.C74_unique.
Print Assumptions Prop_Total.C74_success.
Print Assumptions Prop_Process.C75_process.
Print Assumptions Prop_Process.C75_others.
Print Assumptions Prop_Process.C75_plain.
Print Assumptions Prop_Cpu.C76_instruction.
Print Assumptions Prop_Cpu.C76_step.
Print Assumptions Prop_Cpu.C76_runs.
Print Assumptions Prop_Bound.C77_size.
Print Assumptions Prop_Bound.C77_pieces.
Print Assumptions Prop_Raw.C78_run.
Print Assumptions Prop_Raw.C78_defined.
Print Assumptions Prop_Raw.C78_print.
Print Assumptions Prop_Raw.C78_strings.
Print Assumptions Prop_Told.C79_status.
Print Assumptions Prop_Told.C79_success.
Print Assumptions Prop_Told.C79_report.
Print Assumptions Prop_Told.C79_tells.
Print Assumptions Prop_Oom.C80_memory.
Print Assumptions Prop_Oom.C80_no_labels.
Print Assumptions Prop_Oom.C80_asks.
Print Assumptions Prop_Oom.C80_start.
Print Assumptions Prop_Oom.C80_process.
Print Assumptions Prop_Oom.C80_disk.
Print Assumptions Prop_Join.C81_separate.
Print Assumptions Prop_Join.C81_follows.
Print Assumptions Prop_Patch.C82_patch.
Print Assumptions Prop_Blame.C83_blame.
Print Assumptions Prop_Supply.C84_supply.
Print Assumptions Prop_Prefix.C85_cut.
Print Assumptions Prop_Safe.C86_exact.
Print Assumptions Prop_Safe.C86_memory.
Print Assumptions Prop_Safe.C86_buffers.
Print Assumptions Prop_Safe.C86_comments.
Print Assumptions Prop_Safe.C86_ascii.
Print Assumptions Prop_Posix.C87_run.
Print Assumptions Prop_Posix.C87_usage.
Print Assumptions Prop_Posix.C87_request.
Print Assumptions Prop_Posix.C87_otherwise.
Print Assumptions Prop_Posix.C87_portable.
Print Assumptions Prop_Posix.C87_portable_request.
Print Assumptions Prop_Posix.C87_order_matters.
Print Assumptions Prop_Write.C89_written.
Print Assumptions Prop_Write.C89_exact.
Print Assumptions Prop_Write.C89_format.
Print Assumptions Prop_Write.C89_one_meaning.
Print Assumptions Prop_Shift.C90_shift.
Print Assumptions Prop_Explicit.C91_origin.
Print Assumptions Prop_Explicit.C91_constant.
Print Assumptions Prop_Explicit.C91_last_origin.
Print Assumptions Prop_Blocks.C92_blocks_partial.
Print Assumptions Prop_Blocks.C92_refuted.
Print Assumptions Prop_Const.C93_value.
Print Assumptions Prop_Const.C93_still.
Print Assumptions Prop_Data.C94_data.
Print Assumptions Prop_Data.C94_first.
Print Assumptions Prop_Reach.C95_reach.
Print Assumptions Prop_Reach.C95_exactly.
Print Assumptions Prop_Reach.C95_insert.
Print Assumptions Prop_Reach.C95_crossing.
Print Assumptions Prop_Reach.C95_constant.

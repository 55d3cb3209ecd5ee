-Q theories Verif
theories/Base.v
theories/Model_Opcode.v
theories/Model_Error.v
theories/Model_Lexer.v
theories/Model_SymbolTable.v
theories/Model_Parser.v
theories/Model_ForwardRef.v
theories/Model_Generator.v
theories/Model_Main.v
theories/Spec_Isa.v
theories/Spec_Text.v
theories/Spec_Asm.v
theories/Spec_Link.v
theories/Spec_Report.v
theories/Proof_Base.v
theories/Proof_Opcode.v
theories/Proof_Chars.v
theories/Proof_Error.v
theories/Proof_Lex1.v
theories/Proof_Lex2.v
theories/Prop_Isa.v
theories/Prop_Lexer.v
theories/Spec_Table.v
theories/Proof_Prime.v
theories/Proof_Table.v
theories/Proof_Refs.v
theories/Prop_Table.v
theories/Proof_Fun.v
theories/Proof_Core.v
theories/Proof_Parse.v
theories/Proof_Sim1.v
theories/Proof_Sim2.v
theories/Proof_Sim3.v
theories/Proof_Sim4.v
theories/Proof_Run.v
theories/Proof_Alloc.v
theories/Proof_Source.v
theories/Prop_Run.v
theories/Spec_Diag.v
theories/Proof_Modes.v
theories/Proof_Diag.v
theories/Proof_Whole.v
theories/Proof_Ref.v
theories/Proof_Image.v
theories/Spec_Grammar.v
theories/Proof_Grammar.v
theories/Proof_Regular.v
theories/Proof_At.v
theories/Spec_Prog.v
theories/Spec_Edit.v
theories/Proof_Prog.v
theories/Proof_Numbers.v
theories/Proof_Kept.v
theories/Proof_Check.v
theories/Prop_State.v
theories/Prop_Program.v
theories/Prop_Code.v
theories/Prop_Lines.v
theories/Spec_Alike.v
theories/Proof_Alike.v
theories/Proof_Same.v
theories/Prop_Same.v
theories/Proof_Eight.v
theories/Prop_End.v
theories/Prop_Unit.v
theories/Prop_Syntax.v
theories/Model_Args.v
theories/Prop_Args.v
theories/Proof_Sqrt.v
theories/Spec_Change.v
theories/Proof_Match.v
theories/Prop_Change.v
theories/Model_Memory.v
theories/Proof_Heap.v
theories/Proof_HeapTable.v
theories/Proof_HeapRefs.v
theories/Proof_HeapRun.v
theories/Prop_Memory.v
theories/Proof_Decimal.v
theories/Prop_History.v
theories/Prop_Again.v
theories/Prop_Ends.v
theories/Proof_Rewrite.v
theories/Prop_Edit.v
theories/Proof_Place.v
theories/Proof_Reloc.v
theories/Prop_Move.v
theories/Model_Io.v
theories/Proof_Io.v
theories/Spec_Crash.v
theories/Proof_Seen.v
theories/Proof_Crash.v
theories/Prop_Crash.v
theories/Prop_Names.v
theories/Model_Sched.v
theories/Proof_Sched.v
theories/Prop_Sched.v
theories/Spec_Listing.v
theories/Proof_Listing.v
theories/Prop_Listing.v
theories/Prop_Cost.v
theories/Spec_Decode.v
theories/Prop_Decode.v
theories/Prop_Alloc.v
theories/Spec_Numbers.v
theories/Prop_Numbers.v
theories/Model_Argv.v
theories/Spec_Argv.v
theories/Prop_Argv.v
theories/Prop_Order.v
theories/Spec_Buffer.v
theories/Prop_Buffer.v
theories/Spec_Left.v
theories/Prop_Left.v
theories/Spec_Total.v
theories/Prop_Total.v
theories/Model_Disk.v
theories/Spec_Process.v
theories/Prop_Process.v
theories/Spec_Cpu.v
theories/Prop_Cpu.v
theories/Prop_Bound.v
theories/Prop_Cases.v
theories/Model_Raw.v
theories/Proof_Raw.v
theories/Proof_Raw2.v
theories/Prop_Raw.v
theories/Spec_Told.v
theories/Prop_Told.v
theories/Spec_Oom.v
theories/Proof_Oom.v
theories/Prop_Oom.v
theories/Spec_Join.v
theories/Prop_Join.v
theories/Prop_Patch.v
theories/Prop_Blame.v
theories/Prop_Supply.v
theories/Prop_Exact.v
theories/Prop_Prefix.v
theories/Prop_Safe.v
theories/Prop_Posix.v
theories/Spec_Bytes.v
theories/Prop_Bytes.v
theories/Spec_Write.v
theories/Prop_Write.v
theories/Spec_Shift.v
theories/Prop_Shift.v
theories/Prop_Explicit.v
theories/Prop_Blocks.v
theories/Prop_Const.v
theories/Spec_Data.v
theories/Prop_Data.v
theories/Prop_Reach.v
theories/Check_Base.v
theories/Check_prime.v
theories/Check_opcode.v
theories/Check_symbol_table.v
theories/Check_lexer.v
theories/Check_parser1.v
theories/Check_parser2.v
theories/Check_forward_reference.v
theories/Check_generator.v
theories/Check_error.v
theories/Check_assemble.v
theories/Check_Examples.v
theories/Audit.v

(** Model_Main.v -- model of src/main.c: the whole assembler. *)
From Verif Require Import Base Model_Opcode Model_Error Model_Lexer Model_SymbolTable
  Model_Parser Model_ForwardRef Model_Generator.

Definition MAX_BUFFER_SIZE : nat := 128.   (* src/main.c:106 *)
(** <stdlib.h>, used by src/main.c:95,140 and 290 *)
Definition EXIT_SUCCESS : Z := 0.
(** <stdlib.h>, src/main.c:140 *)
Definition EXIT_FAILURE : Z := 1.

(** Outcomes of the allocations made while one source line is processed: src/symbol_table.c
    100, 141-146; src/forward_reference.c 103-136, 169. *)
Record AllocEnv := mkAlloc {
  ok_resize : bool;   (* calloc in resize_symbols *)
  ok_symbol : bool;   (* malloc/calloc in init_symbol *)
  ok_ref : bool;      (* the four allocations of create_forward_ref *)
  ok_grow : bool }.   (* realloc in resize_unresolved *)

(** src/main.c:188, fgets(buffer, MAX_BUFFER_SIZE, inf): at most 127 bytes, up to and including a
    newline.  The [nat] is the room left. *)
Fixpoint fgets (room : nat) (s : text) : text * text :=
  match room, s with
  | O, _ => ([], s)
  | _, [] => ([], [])
  | S r, c :: s' =>
    if Ascii.eqb c ch_nl then ([c], s')
    else let '(l, rest) := fgets r s' in (c :: l, rest)
  end.

(** src/main.c:188: the successive results of fgets until it returns NULL at the end of the file;
    fuel is the length of the file (each call reads at least one byte) *)
Fixpoint chunks_fuel (fuel : nat) (s : text) : list text :=
  match fuel, s with
  | O, _ => []
  | _, [] => []
  | S k, _ => let '(l, rest) := fgets (MAX_BUFFER_SIZE - 1) s in l :: chunks_fuel k rest
  end.
(** src/main.c:188: the results of fgets for a whole file *)
Definition chunks (s : text) : list text := chunks_fuel (List.length s) s.

(** the C string stored in the buffer of src/main.c:178: the bytes before the first NUL *)
Fixpoint cstring (s : text) : text :=
  match s with
  | [] => []
  | c :: s' => if Ascii.eqb c ch_nul then [] else c :: cstring s'
  end.

(** the variables of main (src/main.c:154-158, 178-187) and its structs; [st_stdout] is what
    was printed so far *)
Record St := mkSt {
  st_symtab : SymbolTable;
  st_unresolved : Unresolved;
  st_pc : Z;
  st_line_num : Z;
  st_written : Z;
  st_total : Z;
  st_out : OFile;
  st_lexer : Lexer;
  st_tk : Token;
  st_instr : Instruction;
  st_stdout : text }.

(** how one turn of the loop of src/main.c:188-260 ends *)
Inductive LineRes :=
| Next (s : St)      (* go on with the next line *)
| Finish (s : St)    (* .END: leave the loop *)
| Abort (s : St).    (* ABORT_ASSEMBLY() *)

(** IS_ERROR, src/main.c:104 *)
Definition IS_ERROR (code : Z) : bool := code <? 0.

(** src/main.c:215-259, the instruction part of the body of the loop, from
    find_operand on.  [st] already contains the structs left by the first part. *)
Definition process_instruction (env : AllocEnv) (buffer : text) (st : St) : M LineRes :=
  operand <- find_operand (st_lexer st) ;;
  '(operand_status, lexer1, out1) <-
     parse_operand (st_lexer st) (st_instr st) operand (st_symtab st) ;;
  let st1 := mkSt (st_symtab st) (st_unresolved st) (st_pc st) (st_line_num st)
                  (st_written st) (st_total st) (st_out st) lexer1 (st_tk st) (st_instr st)
                  (st_stdout st ++ out1) in
  if IS_ERROR operand_status then Ret (Abort st1)
  else
    let written1 := if operand_status =? BRANCH_FORWARD_REFERENCE then 2
                    else if operand_status =? JUMP_FORWARD_REFERENCE then 3
                    else st_written st in
    '(return_code, instr2, out2) <- parse_addr_mode lexer1 (st_instr st) operand operand_status ;;
    let st2 := mkSt (st_symtab st) (st_unresolved st) (st_pc st) (st_line_num st)
                    written1 (st_total st) (st_out st) lexer1 (st_tk st) instr2
                    (st_stdout st ++ out1 ++ out2) in
    (* the forward-reference branch: remember the reference, write dummy bytes *)
    pending <-
      (if return_code =? FORWARD_REFERENCE then
         match operand with
         | None => Undef UbNull
         | Some i =>
           tok <- get (lx_seq lexer1) i ;;
           oref <- create_forward_ref (ok_ref env) buffer instr2 tok operand_status
                                      (st_pc st) (st_line_num st) ;;
           match oref with
           | None => Ret None
           | Some ref =>
             '(code, u) <- add_forward_ref (ok_grow env) (st_unresolved st) ref ;;
             if IS_ERROR code then Ret None
             else
               let f1 := fputc 0 (fputc 0 (st_out st)) in
               Ret (Some (u, if written1 =? 3 then fputc 0 f1 else f1))
           end
         end
       else if IS_ERROR return_code then Ret None
       else Ret (Some (st_unresolved st, st_out st))) ;;
    match pending with
    | None => Ret (Abort st2)
    | Some (unresolved2, outf2) =>
      '(written_bytes, outf3, lexer3, instr3, out3) <-
        (if (operand_status =? BRANCH_OPERAND) || (operand_status =? JUMP_OPERAND) then
           resolve_label_ref outf2 lexer1 instr2 operand operand_status (st_symtab st) (st_pc st)
         else
           otok <- (match operand with
                    | None => Ret None
                    | Some i => t <- get (lx_seq lexer1) i ;; Ret (Some t)
                    end) ;;
           let '(n, f, i3) := generate_code outf2 instr2 otok (st_pc st) in
           Ret (n, f, lexer1, i3, [])) ;;
      let stdout3 := st_stdout st ++ out1 ++ out2 ++ out3 in
      if IS_ERROR written_bytes then
        Ret (Abort (mkSt (st_symtab st) unresolved2 (st_pc st) (st_line_num st) written_bytes
                         (st_total st) outf3 lexer3 (st_tk st) instr3 stdout3))
      else
        line_num <- int_of (st_line_num st + 1) ;;
        pc <- int_of (st_pc st + written_bytes) ;;
        total <- int_of (st_total st + written_bytes) ;;
        Ret (Next (mkSt (st_symtab st) unresolved2 pc line_num written_bytes total outf3
                        lexer3 (st_tk st) instr3 stdout3))
    end.

(** src/main.c:189-259, one turn of the loop; [buffer] is the C string read by fgets *)
Definition process_line (env : AllocEnv) (buffer : text) (st : St) : M LineRes :=
  '(return_code, lexer1, tk1, instr1, out1) <-
     lex_line buffer (st_lexer st) (st_tk st) (st_instr st) (st_line_num st) ;;
  let upd_st lexer symtab pc out :=
    mkSt symtab (st_unresolved st) pc (st_line_num st) (st_written st) (st_total st)
         (st_out st) lexer tk1 instr1 (st_stdout st ++ out) in
  if IS_ERROR return_code then Ret (Abort (upd_st lexer1 (st_symtab st) (st_pc st) out1))
  else
    '(return_code, lexer2, out2) <- parse_line lexer1 ;;
    if IS_ERROR return_code then
      Ret (Abort (upd_st lexer2 (st_symtab st) (st_pc st) (out1 ++ out2)))
    else
      first <- get (lx_seq lexer2) 0 ;;
      let rest (st' : St) : M LineRes :=
        match i_mnemonic instr1 with
        | NULL_MNEMONIC =>
          line_num <- int_of (st_line_num st' + 1) ;;
          Ret (Next (mkSt (st_symtab st') (st_unresolved st') (st_pc st') line_num
                          (st_written st') (st_total st') (st_out st') (st_lexer st')
                          (st_tk st') (st_instr st') (st_stdout st')))
        | _ => process_instruction env buffer st'
        end in
      match tk_type first with
      | TOKEN_LABEL | TOKEN_DEFINE_DIRECTIVE =>
        '(code, lexer3, symtab3, out3) <-
           parse_label_declaration (ok_resize env) (ok_symbol env) lexer2 (st_symtab st)
                                   (st_pc st) ;;
        let st' := upd_st lexer3 symtab3 (st_pc st) (out1 ++ out2 ++ out3) in
        if IS_ERROR code then Ret (Abort st') else rest st'
      | TOKEN_BASE | TOKEN_ORG_DIRECTIVE =>
        rest (upd_st lexer2 (st_symtab st) (tk_value first) (out1 ++ out2))
      | TOKEN_END_DIRECTIVE =>
        Ret (Finish (upd_st lexer2 (st_symtab st) (st_pc st) (out1 ++ out2)))
      | _ => rest (upd_st lexer2 (st_symtab st) (st_pc st) (out1 ++ out2))
      end.

(** src/main.c:188-260, the loop over the lines; [env n] are the allocation outcomes
    at line number [n] *)
Fixpoint run_lines (env : Z -> AllocEnv) (lines : list text) (st : St) : M LineRes :=
  match lines with
  | [] => Ret (Finish st)
  | l :: lines' =>
    r <- process_line (env (st_line_num st)) (cstring l) st ;;
    match r with
    | Next st' => run_lines env lines' st'
    | _ => Ret r
    end
  end.

(** what src/main.c:267-276 change: the output file and what is printed *)
Definition st_set_out (st : St) (f : OFile) (out : text) : St :=
  mkSt (st_symtab st) (st_unresolved st) (st_pc st) (st_line_num st) (st_written st)
       (st_total st) f (st_lexer st) (st_tk st) (st_instr st) (st_stdout st ++ out).

(** src/main.c:262-277: the loop that resolves the forward references [i], [i+1],
    ..., [i+n-1]; [file_name] is args.src_file *)
Fixpoint resolve_all (file_name : text) (n : nat) (i : Z) (st : St) : M LineRes :=
  match n with
  | O => Ret (Finish st)
  | S n' =>
    oref <- get (un_refs (st_unresolved st)) i ;;
    match oref with
    | None => Undef UbNull
    | Some ref =>
      dest_pc <- search_symbol (st_symtab st) (fr_label ref) ;;
      if IS_ERROR dest_pc then
        out <- print_error (Some (fr_source_line ref)) ERROR_MISSING_LABEL_DEFINITION
                           (Some (fr_operand_location ref)) file_name (fr_line_num ref) ;;
        Ret (Abort (st_set_out st (st_out st) out))
      else
        '(written_bytes, f, out) <- resolve_forward_ref (st_out st) ref (st_lexer st) dest_pc ;;
        let st' := st_set_out st f out in
        if IS_ERROR written_bytes then Ret (Abort st')
        else resolve_all file_name n' (i + 1) st'
    end
  end.

(** Not in the code: what the user sees of a run of the assembler on an open source file: the exit
    status, the standard output and the content of the output file *)
Record Outcome := mkOutcome { exit_code : Z; stdout : text; binary : list Z }.

(** src/main.c:279-281 *)
Definition summary (total_bytes count : Z) : text :=
  T "Assembly successful." ++ [ch_nl] ++
  fmt_d total_bytes ++ T " (0x" ++ fmt_04x total_bytes ++ T ") bytes assembled." ++ [ch_nl] ++
  fmt_d count ++ T " symbols." ++ [ch_nl].

(** src/main.c:154-158 and 178-187: the initial values.  [written_bytes] is
    initialised to 0; the uninitialised variables (return_code, operand, first,
    operand_status, ref) are assigned before they are read and are local values here *)
Definition init_state (file_name : text) : St :=
  mkSt init_symbol_table init_unresolved 0 1 0 0 (mkOFile [] 0) (init_lexer file_name)
       init_token init_instruction [].

(** src/main.c:178-290: from the opened files to the exit of the program *)
Definition assemble (env : Z -> AllocEnv) (file_name : text) (source : text) : M Outcome :=
  r <- run_lines env (chunks source) (init_state file_name) ;;
  match r with
  | Abort st => Ret (mkOutcome EXIT_FAILURE (st_stdout st) (of_data (st_out st)))
  | Next st | Finish st =>
    r2 <- resolve_all file_name (Z.to_nat (un_curr (st_unresolved st))) 0 st ;;
    match r2 with
    | Abort st2 => Ret (mkOutcome EXIT_FAILURE (st_stdout st2) (of_data (st_out st2)))
    | Next st2 | Finish st2 =>
      Ret (mkOutcome EXIT_SUCCESS
                     (st_stdout st2 ++ summary (st_total st2) (tab_count (st_symtab st2)))
                     (of_data (st_out st2)))
    end
  end.

(** Not in the code: allocations never fail *)
Definition alloc_all : AllocEnv := mkAlloc true true true true.
(** Not in the code: no allocation of any line fails *)
Definition no_failure : Z -> AllocEnv := fun _ => alloc_all.

(** src/main.c:178-290 with enough memory *)
Definition gaia (file_name source : text) : M Outcome := assemble no_failure file_name source.

(** ** Files and command line (src/main.c:143-176).  A file system maps names to
    contents; fopen(name, "r") succeeds when the name has a content, fopen(name, "wb")
    when [fs_creatable] says so (permissions and directories are not modelled). *)
Record FileSystem := mkFS {
  fs_file : text -> option (list Z);
  fs_creatable : text -> bool }.

(** creating, or truncating, and writing a file *)
Definition fs_write (fs : FileSystem) (name : text) (content : list Z) : FileSystem :=
  mkFS (fun n => if text_eqb n name then Some content else fs_file fs n) (fs_creatable fs).

(** Not in the code, the observable result of the process: exit status, standard output, file system afterwards *)
Definition ProcResult : Type := (Z * text * FileSystem)%type.

(** src/main.c:143-291 main, after argp_parse has delivered [src_file] and
    [out_file] (default "a.out"); [init_ok] is the outcome of the allocations of
    lines 154-158 (any failure has the same effect, line 159).  Opening the output truncates it before the source is read; the
    source is read from its content at that time, and as the first read of an
    empty file ends the loop, no write can happen before it when both are the same
    file. *)
Definition main (init_ok : bool) (env : Z -> AllocEnv) (fs : FileSystem)
    (src_file out_file : text) : M ProcResult :=
  if negb init_ok then
    out <- print_error None ERROR_MEMORY_ALLOCATION_FAIL None src_file (-1) ;;
    Ret (EXIT_FAILURE, out, fs)
  else
    match fs_file fs src_file with
    | None =>
      out <- print_error None ERROR_FILE_OPEN_FAIL None src_file (-1) ;;
      Ret (EXIT_FAILURE, out, fs)
    | Some _ =>
      if negb (fs_creatable fs out_file) then
        out <- print_error None ERROR_BINARY_FILE_CREATION_FAIL None src_file (-1) ;;
        Ret (EXIT_FAILURE, out, fs)
      else
        let fs1 := fs_write fs out_file [] in
        let source := match fs_file fs1 src_file with Some c => map chr c | None => [] end in
        o <- assemble env src_file source ;;
        Ret (exit_code o, stdout o, fs_write fs1 out_file (binary o))
    end.

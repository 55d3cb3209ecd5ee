(** Model_Io.v -- second model of the part of src/generator.c and src/main.c that uses the two files, in which every
    call of fgets, fputc, fseek and fclose can fail and every content the output file ever had is recorded.  The
    functions that do not use the files are those of the other Model files. *)
From Verif Require Import Base Model_Opcode Model_Error Model_Lexer Model_SymbolTable
  Model_Parser Model_ForwardRef Model_Generator Model_Main.

(** Not in the code: the outcomes of the calls on the output file.  [fault k = None]: the k-th call works;
    [Some f]: it fails, and afterwards the file and its position are [f], which may be anything (the C library
    buffers the output, a failed call can lose any part of it). *)
Definition Faults : Type := nat -> option OFile.

(** the outcomes of the calls of fgets: [reads k = false]: the k-th call fails and returns NULL *)
Definition Reads : Type := nat -> bool.

(** the calls on the output file *)
Inductive IoCall := CallPut (c : Z) | CallSeek (pos : Z) | CallClose.

(** the output FILE (src/main.c:152, 171), with the number of calls made so far, all contents it had since it was
    opened and all calls made, the newest first.  The contents are those without a buffer in the C library; Spec_Buffer
    has the buffer, and C60_buffered shows that what a process killed at any moment leaves behind is one of these
    contents. *)
Record IoFile := mkIo { io_file : OFile; io_calls : nat; io_seen : list (list Z); io_made : list IoCall }.

(** <stdio.h> EOF, the result of a failed fputc or fclose (used at src/generator.c:40, 53, 55, 167, 168, 180-182,
    src/main.c:237-240, 284) *)
Definition EOF : Z := -1.

(** fputc(c, f) (src/generator.c:40, 53, 55, 167, 168, 180-182; src/main.c:237-240): its result and its effect *)
Definition fputc_io (fault : Faults) (c : Z) (w : IoFile) : Z * IoFile :=
  match fault (io_calls w) with
  | None => let f := fputc c (io_file w) in (c mod 256, mkIo f (S (io_calls w)) (of_data f :: io_seen w) (CallPut c :: io_made w))
  | Some f => (EOF, mkIo f (S (io_calls w)) (of_data f :: io_seen w) (CallPut c :: io_made w))
  end.

(** fseek(f, pos, SEEK_SET) (src/generator.c:39, 166, 179) *)
Definition fseek_io (fault : Faults) (pos : Z) (w : IoFile) : Z * IoFile :=
  match fault (io_calls w) with
  | None => (0, mkIo (fseek (io_file w) pos) (S (io_calls w)) (of_data (io_file w) :: io_seen w) (CallSeek pos :: io_made w))
  | Some f => (-1, mkIo f (S (io_calls w)) (of_data f :: io_seen w) (CallSeek pos :: io_made w))
  end.

(** fclose(f) (src/main.c:129, 284) *)
Definition fclose_io (fault : Faults) (w : IoFile) : Z * IoFile :=
  match fault (io_calls w) with
  | None => (0, mkIo (io_file w) (S (io_calls w)) (of_data (io_file w) :: io_seen w) (CallClose :: io_made w))
  | Some f => (EOF, mkIo f (S (io_calls w)) (of_data f :: io_seen w) (CallClose :: io_made w))
  end.

(** src/generator.c:34-59 generate_code *)
Definition generate_code_io (fault : Faults) (w : IoFile) (instr : Instruction) (operand : option Token)
    (curr_pc : Z) : Z * IoFile * Instruction :=
  let instr1 := set_opcode instr (get_opcode instr) in
  let '(_, w0) := fseek_io fault curr_pc w in
  let '(_, w1) := fputc_io fault (i_opcode instr1) w0 in
  match operand with
  | None => (ONE_BYTE, w1, instr1)
  | Some t =>
    if ty_eqb (tk_type t) TOKEN_ACCUMULATOR then (ONE_BYTE, w1, instr1)
    else
      let operand_bytes := tk_value t in
      let '(_, w2) := fputc_io fault (Z.land operand_bytes 0xFF) w1 in
      if negb (Z.land (i_bitflag instr1) ABSOLUTE_FIELD =? 0) then
        let '(_, w3) := fputc_io fault (Z.shiftr operand_bytes 8) w2 in (THREE_BYTES, w3, instr1)
      else (TWO_BYTES, w2, instr1)
  end.

(** src/generator.c:102-132 resolve_label_ref *)
Definition resolve_label_ref_io (fault : Faults) (w : IoFile) (lexer : Lexer) (instr : Instruction)
    (label : option Z) (operand_status : Z) (symtab : SymbolTable) (curr_pc : Z)
  : M (Z * IoFile * Lexer * Instruction * text) :=
  match label with
  | None =>
    '(c, lexer1, out) <- plain_error lexer ERROR_UNKNOWN ;;
    Ret (c, w, lexer1, instr, out)
  | Some i =>
    tok <- get (lx_seq lexer) i ;;
    dest_pc <- search_symbol symtab (tk_str tok) ;;
    if operand_status =? BRANCH_OPERAND then
      offset <- calc_branch_offset curr_pc dest_pc ;;
      if offset =? ERROR_TOO_BIG_OFFSET then
        out <- print_error (lx_line lexer) ERROR_TOO_BIG_OFFSET (tk_loc tok) (lx_file lexer)
                           (lx_line_num lexer) ;;
        Ret (ERROR_TOO_BIG_OFFSET, w, lexer, instr, out)
      else
        lexer1 <- set_value_at lexer i offset ;;
        tok1 <- get (lx_seq lexer1) i ;;
        let '(n, w1, instr1) := generate_code_io fault w instr (Some tok1) curr_pc in
        Ret (n, w1, lexer1, instr1, [])
    else if operand_status =? JUMP_OPERAND then
      lexer1 <- set_value_at lexer i dest_pc ;;
      tok1 <- get (lx_seq lexer1) i ;;
      let '(n, w1, instr1) := generate_code_io fault w instr (Some tok1) curr_pc in
      Ret (n, w1, lexer1, instr1, [])
    else
      '(c, lexer1, out) <- plain_error lexer ERROR_UNKNOWN ;;
      Ret (c, w, lexer1, instr, out)
  end.

(** src/generator.c:148-194 resolve_forward_ref *)
Definition resolve_forward_ref_io (fault : Faults) (w : IoFile) (ref : ForwardRef) (lexer : Lexer) (dest_pc : Z)
  : M (Z * IoFile * text) :=
  let instr := fr_instr ref in
  if fr_operand_status ref =? BRANCH_FORWARD_REFERENCE then
    offset <- calc_branch_offset (fr_pc ref) dest_pc ;;
    if offset =? ERROR_TOO_BIG_OFFSET then
      out <- print_error (Some (fr_source_line ref)) ERROR_TOO_BIG_OFFSET
                         (Some (fr_operand_location ref)) (lx_file lexer) (fr_line_num ref) ;;
      Ret (ERROR_TOO_BIG_OFFSET, w, out)
    else if negb (i_bitflag instr =? 0) then
      let '(_, w0) := fseek_io fault (fr_pc ref) w in
      let '(_, w1) := fputc_io fault (get_opcode instr) w0 in
      let '(_, w2) := fputc_io fault (Z.land offset 0xFF) w1 in
      Ret (TWO_BYTES, w2, [])
    else
      '(c, _, out) <- plain_error lexer ERROR_ILLEGAL_ADDRESSING_MODE ;;
      Ret (c, w, out)
  else if fr_operand_status ref =? JUMP_FORWARD_REFERENCE then
    if negb (i_bitflag instr =? 0) then
      let '(_, w0) := fseek_io fault (fr_pc ref) w in
      let '(_, w1) := fputc_io fault (get_opcode instr) w0 in
      let '(_, w2) := fputc_io fault (Z.land dest_pc 0xFF) w1 in
      let '(_, w3) := fputc_io fault (Z.shiftr dest_pc 8) w2 in
      Ret (THREE_BYTES, w3, [])
    else
      '(c, _, out) <- plain_error lexer ERROR_ILLEGAL_ADDRESSING_MODE ;;
      Ret (c, w, out)
  else
    '(c, _, out) <- plain_error lexer ERROR_UNKNOWN ;;
    Ret (c, w, out).

(** the variables of main and its output file.  The field st_out of [si_st] is not used here, the file is [si_io]. *)
Record StIo := mkStIo { si_st : St; si_io : IoFile }.

(** how one turn of the loop of src/main.c:188-260 ends *)
Inductive LineIo :=
| NextIo (s : StIo)
| FinishIo (s : StIo)
| AbortIo (s : StIo).

(** src/main.c:215-259, the instruction part of the body of the loop *)
Definition process_instruction_io (fault : Faults) (env : AllocEnv) (buffer : text) (st : St) (w : IoFile) : M LineIo :=
  operand <- find_operand (st_lexer st) ;;
  '(operand_status, lexer1, out1) <-
     parse_operand (st_lexer st) (st_instr st) operand (st_symtab st) ;;
  let st1 := mkSt (st_symtab st) (st_unresolved st) (st_pc st) (st_line_num st)
                  (st_written st) (st_total st) (st_out st) lexer1 (st_tk st) (st_instr st)
                  (st_stdout st ++ out1) in
  if IS_ERROR operand_status then Ret (AbortIo (mkStIo st1 w))
  else
    let written1 := if operand_status =? BRANCH_FORWARD_REFERENCE then 2
                    else if operand_status =? JUMP_FORWARD_REFERENCE then 3
                    else st_written st in
    '(return_code, instr2, out2) <- parse_addr_mode lexer1 (st_instr st) operand operand_status ;;
    let st2 := mkSt (st_symtab st) (st_unresolved st) (st_pc st) (st_line_num st)
                    written1 (st_total st) (st_out st) lexer1 (st_tk st) instr2
                    (st_stdout st ++ out1 ++ out2) in
    pending <-
      (if return_code =? FORWARD_REFERENCE then
         match operand with
         | None => Undef UbNull
         | Some i =>
           tok <- get (lx_seq lexer1) i ;;
           oref <- create_forward_ref (ok_ref env) buffer instr2 tok operand_status
                                      (st_pc st) (st_line_num st) ;;
           match oref with
           | None => Ret None
           | Some ref =>
             '(code, u) <- add_forward_ref (ok_grow env) (st_unresolved st) ref ;;
             if IS_ERROR code then Ret None
             else
               let '(_, w1) := fputc_io fault 0 w in
               let '(_, w2) := fputc_io fault 0 w1 in
               Ret (Some (u, if written1 =? 3 then snd (fputc_io fault 0 w2) else w2))
           end
         end
       else if IS_ERROR return_code then Ret None
       else Ret (Some (st_unresolved st, w))) ;;
    match pending with
    | None => Ret (AbortIo (mkStIo st2 w))
    | Some (unresolved2, w2) =>
      '(written_bytes, w3, lexer3, instr3, out3) <-
        (if (operand_status =? BRANCH_OPERAND) || (operand_status =? JUMP_OPERAND) then
           resolve_label_ref_io fault w2 lexer1 instr2 operand operand_status (st_symtab st) (st_pc st)
         else
           otok <- (match operand with
                    | None => Ret None
                    | Some i => t <- get (lx_seq lexer1) i ;; Ret (Some t)
                    end) ;;
           let '(n, f, i3) := generate_code_io fault w2 instr2 otok (st_pc st) in
           Ret (n, f, lexer1, i3, [])) ;;
      let stdout3 := st_stdout st ++ out1 ++ out2 ++ out3 in
      if IS_ERROR written_bytes then
        Ret (AbortIo (mkStIo (mkSt (st_symtab st) unresolved2 (st_pc st) (st_line_num st) written_bytes
                                   (st_total st) (st_out st) lexer3 (st_tk st) instr3 stdout3) w3))
      else
        line_num <- int_of (st_line_num st + 1) ;;
        pc <- int_of (st_pc st + written_bytes) ;;
        total <- int_of (st_total st + written_bytes) ;;
        Ret (NextIo (mkStIo (mkSt (st_symtab st) unresolved2 pc line_num written_bytes total (st_out st)
                                  lexer3 (st_tk st) instr3 stdout3) w3))
    end.

(** src/main.c:189-259, the body of the loop *)
Definition process_line_io (fault : Faults) (env : AllocEnv) (buffer : text) (s : StIo) : M LineIo :=
  let st := si_st s in
  let w := si_io s in
  '(return_code, lexer1, tk1, instr1, out1) <-
     lex_line buffer (st_lexer st) (st_tk st) (st_instr st) (st_line_num st) ;;
  let upd_st lexer symtab pc out :=
    mkSt symtab (st_unresolved st) pc (st_line_num st) (st_written st) (st_total st)
         (st_out st) lexer tk1 instr1 (st_stdout st ++ out) in
  if IS_ERROR return_code then Ret (AbortIo (mkStIo (upd_st lexer1 (st_symtab st) (st_pc st) out1) w))
  else
    '(return_code, lexer2, out2) <- parse_line lexer1 ;;
    if IS_ERROR return_code then
      Ret (AbortIo (mkStIo (upd_st lexer2 (st_symtab st) (st_pc st) (out1 ++ out2)) w))
    else
      first <- get (lx_seq lexer2) 0 ;;
      let rest (st' : St) : M LineIo :=
        match i_mnemonic instr1 with
        | NULL_MNEMONIC =>
          line_num <- int_of (st_line_num st' + 1) ;;
          Ret (NextIo (mkStIo (mkSt (st_symtab st') (st_unresolved st') (st_pc st') line_num
                                    (st_written st') (st_total st') (st_out st') (st_lexer st')
                                    (st_tk st') (st_instr st') (st_stdout st')) w))
        | _ => process_instruction_io fault env buffer st' w
        end in
      match tk_type first with
      | TOKEN_LABEL | TOKEN_DEFINE_DIRECTIVE =>
        '(code, lexer3, symtab3, out3) <-
           parse_label_declaration (ok_resize env) (ok_symbol env) lexer2 (st_symtab st)
                                   (st_pc st) ;;
        let st' := upd_st lexer3 symtab3 (st_pc st) (out1 ++ out2 ++ out3) in
        if IS_ERROR code then Ret (AbortIo (mkStIo st' w)) else rest st'
      | TOKEN_BASE | TOKEN_ORG_DIRECTIVE =>
        rest (upd_st lexer2 (st_symtab st) (tk_value first) (out1 ++ out2))
      | TOKEN_END_DIRECTIVE =>
        Ret (FinishIo (mkStIo (upd_st lexer2 (st_symtab st) (st_pc st) (out1 ++ out2)) w))
      | _ => rest (upd_st lexer2 (st_symtab st) (st_pc st) (out1 ++ out2))
      end.

(** src/main.c:188-260, the loop over the lines; [k] calls of fgets were made *)
Fixpoint run_lines_io (reads : Reads) (fault : Faults) (env : Z -> AllocEnv) (k : nat) (lines : list text) (s : StIo)
  : M LineIo :=
  if reads k then
    match lines with
    | [] => Ret (FinishIo s)
    | l :: lines' =>
      r <- process_line_io fault (env (st_line_num (si_st s))) (cstring l) s ;;
      match r with
      | NextIo s' => run_lines_io reads fault env (S k) lines' s'
      | _ => Ret r
      end
    end
  else Ret (FinishIo s).

(** src/main.c:262-277, the loop over the forward references *)
Fixpoint resolve_all_io (fault : Faults) (file_name : text) (n : nat) (i : Z) (s : StIo) : M LineIo :=
  match n with
  | O => Ret (FinishIo s)
  | S n' =>
    let st := si_st s in
    oref <- get (un_refs (st_unresolved st)) i ;;
    match oref with
    | None => Undef UbNull
    | Some ref =>
      dest_pc <- search_symbol (st_symtab st) (fr_label ref) ;;
      if IS_ERROR dest_pc then
        out <- print_error (Some (fr_source_line ref)) ERROR_MISSING_LABEL_DEFINITION
                           (Some (fr_operand_location ref)) file_name (fr_line_num ref) ;;
        Ret (AbortIo (mkStIo (st_set_out st (st_out st) out) (si_io s)))
      else
        '(written_bytes, w, out) <- resolve_forward_ref_io fault (si_io s) ref (st_lexer st) dest_pc ;;
        let s' := mkStIo (st_set_out st (st_out st) out) w in
        if IS_ERROR written_bytes then Ret (AbortIo s')
        else resolve_all_io fault file_name n' (i + 1) s'
    end
  end.

(** Not in the code: what can be seen of a run on open files: the exit status, the standard output, the final
    content of the output file, all contents it had since it was opened and all calls on it (the newest first) *)
Record OutcomeIo := mkOutcomeIo { xi_code : Z; xi_stdout : text; xi_binary : list Z; xi_seen : list (list Z); xi_made : list IoCall }.

(** src/main.c:126-140 and 283-290: fclose of the output file and the end of the process *)
Definition exit_io (fault : Faults) (code : Z) (out : text) (w : IoFile) : OutcomeIo :=
  let '(_, w1) := fclose_io fault w in mkOutcomeIo code out (of_data (io_file w1)) (io_seen w1) (io_made w1).

(** src/main.c:171: the output file after fopen with "wb" *)
Definition init_io : IoFile := mkIo (mkOFile [] 0) 0 [[]] [].

(** src/main.c:178-290: from the opened files to the exit of the program *)
Definition assemble_io (reads : Reads) (fault : Faults) (env : Z -> AllocEnv) (file_name : text) (source : text)
  : M OutcomeIo :=
  r <- run_lines_io reads fault env 0 (chunks source) (mkStIo (init_state file_name) init_io) ;;
  match r with
  | AbortIo s => Ret (exit_io fault EXIT_FAILURE (st_stdout (si_st s)) (si_io s))
  | NextIo s | FinishIo s =>
    r2 <- resolve_all_io fault file_name (Z.to_nat (un_curr (st_unresolved (si_st s)))) 0 s ;;
    match r2 with
    | AbortIo s2 => Ret (exit_io fault EXIT_FAILURE (st_stdout (si_st s2)) (si_io s2))
    | NextIo s2 | FinishIo s2 =>
      Ret (exit_io fault EXIT_SUCCESS
             (st_stdout (si_st s2) ++ summary (st_total (si_st s2)) (tab_count (st_symtab (si_st s2))))
             (si_io s2))
    end
  end.

(** src/main.c:143-291 main, as in Model_Main.  The result has, in addition, the file systems a process killed at any
    moment of the run can leave behind, the newest first. *)
Definition main_io (reads : Reads) (fault : Faults) (init_ok : bool) (env : Z -> AllocEnv) (fs : FileSystem)
    (src_file out_file : text) : M (ProcResult * list FileSystem) :=
  if negb init_ok then
    out <- print_error None ERROR_MEMORY_ALLOCATION_FAIL None src_file (-1) ;;
    Ret ((EXIT_FAILURE, out, fs), [fs])
  else
    match fs_file fs src_file with
    | None =>
      out <- print_error None ERROR_FILE_OPEN_FAIL None src_file (-1) ;;
      Ret ((EXIT_FAILURE, out, fs), [fs])
    | Some _ =>
      if negb (fs_creatable fs out_file) then
        out <- print_error None ERROR_BINARY_FILE_CREATION_FAIL None src_file (-1) ;;
        Ret ((EXIT_FAILURE, out, fs), [fs])
      else
        let fs1 := fs_write fs out_file [] in
        let source := match fs_file fs1 src_file with Some c => map chr c | None => [] end in
        o <- assemble_io reads fault env src_file source ;;
        Ret ((xi_code o, xi_stdout o, fs_write fs1 out_file (xi_binary o)),
             map (fs_write fs1 out_file) (xi_seen o) ++ [fs])
    end.

(** Not in the code: nothing fails *)
Definition no_fault : Faults := fun _ => None.
(** Not in the code: every read succeeds *)
Definition all_reads : Reads := fun _ => true.

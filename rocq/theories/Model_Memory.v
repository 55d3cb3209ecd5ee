(** Model_Memory.v -- model of the dynamic memory of the assembler: the init_*, destroy_*,
    create_* and resize_* functions of src/lexer.c, src/opcode.c, src/symbol_table.c and
    src/forward_reference.c, and src/main.c with every single allocation, free, fopen and
    fclose.  The lexer, parser and generator allocate nothing; their functions are those of
    Model_Lexer.v, Model_Parser.v and Model_Generator.v. *)
From Verif Require Import Base Model_Opcode Model_Error Model_Lexer Model_SymbolTable
  Model_Parser Model_ForwardRef Model_Generator Model_Main.

(** ** The heap.  A pointer is NULL or the address of the start of a block. *)
Notation ptr := (option nat).

(** what an allocated block holds.  The structs Token, Lexer and Instruction are represented
    by the pointers they own; their other members are values of Model_Lexer.v and
    Model_Opcode.v.  A struct that was allocated and not filled yet is [CUninit]. *)
Inductive Cell :=
| CUninit
| CStr (size : nat) (s : text)               (* char[size] holding the C string s *)
| CToken (str : ptr)                         (* src/lexer.h:39-45 *)
| CSeq (tokens : list ptr)                   (* the elements of the sequence set so far *)
| CLexer (sequence : ptr)                    (* src/lexer.h:47-55 *)
| CInstr                                     (* src/opcode.h:25-30 *)
| CArray (slots : list ptr)                  (* struct Symbol *[n], struct ForwardRef *[n] *)
| CSymbol (label : ptr) (value : Z)          (* src/symbol_table.h:13-17 *)
| CSymtab (symbols : ptr) (size count : Z)   (* src/symbol_table.h:19-23 *)
| CRef (label source_line : ptr) (instr : ptr) (instr_val : Instruction)
       (pc line_num operand_status : Z) (operand_location : nat)
                                             (* src/forward_reference.h:16-25 *)
| CUnres (refs : ptr) (curr size : Z)        (* src/forward_reference.h:27-31 *)
| CFile.                                     (* an open FILE *)

(** the allocated blocks; the next address; the number of allocations tried so far *)
Record Heap := mkHeap { h_cells : list (nat * Cell); h_next : nat; h_tries : nat }.
(** Not in the code: the heap when the program starts *)
Definition empty_heap : Heap := mkHeap [] 0 0.

(** which allocations succeed: the n-th one does if [orc n] *)
Definition Oracle := nat -> bool.

(** malloc and calloc (C library); [c] is what the block holds initially *)
Definition malloc (orc : Oracle) (c : Cell) (h : Heap) : ptr * Heap :=
  if orc (h_tries h) then
    (Some (h_next h), mkHeap ((h_next h, c) :: h_cells h) (S (h_next h)) (S (h_tries h)))
  else (None, mkHeap (h_cells h) (h_next h) (S (h_tries h))).

(** a successful fopen (C library): a new FILE *)
Definition new_file (h : Heap) : ptr * Heap :=
  (Some (h_next h), mkHeap ((h_next h, CFile) :: h_cells h) (S (h_next h)) (h_tries h)).

(** Not in the code: the block at an address *)
Fixpoint lookup (a : nat) (cells : list (nat * Cell)) : option Cell :=
  match cells with
  | [] => None
  | (b, c) :: rest => if Nat.eqb a b then Some c else lookup a rest
  end.

(** Not in the code: the heap without a block *)
Fixpoint remove (a : nat) (cells : list (nat * Cell)) : list (nat * Cell) :=
  match cells with
  | [] => []
  | (b, c) :: rest => if Nat.eqb a b then rest else (b, c) :: remove a rest
  end.

(** reading a block *)
Definition load (h : Heap) (p : ptr) : M Cell :=
  match p with
  | None => Undef UbNull
  | Some a => match lookup a (h_cells h) with Some c => Ret c | None => Undef UbDangling end
  end.

(** free (C library); free(NULL) does nothing *)
Definition free (h : Heap) (p : ptr) : M Heap :=
  match p with
  | None => Ret h
  | Some a =>
    match lookup a (h_cells h) with
    | Some _ => Ret (mkHeap (remove a (h_cells h)) (h_next h) (h_tries h))
    | None => Undef UbFree
    end
  end.

(** writing a block *)
Definition store (h : Heap) (p : ptr) (c : Cell) : M Heap :=
  match p with
  | None => Undef UbNull
  | Some a =>
    match lookup a (h_cells h) with
    | Some _ => Ret (mkHeap ((a, c) :: remove a (h_cells h)) (h_next h) (h_tries h))
    | None => Undef UbDangling
    end
  end.

(** fclose (C library) *)
Definition fclose (h : Heap) (p : ptr) : M Heap :=
  c <- load h p ;;
  match c with CFile => free h p | _ => Undef UbUninit end.

(** memcpy of the bytes of [s] to a zeroed char array: they and the terminating NUL must fit *)
Definition fill_str (h : Heap) (p : ptr) (s : text) : M Heap :=
  c <- load h p ;;
  match c with
  | CStr size _ => if Nat.ltb (List.length s) size then store h p (CStr size s) else Undef UbIndex
  | _ => Undef UbUninit
  end.

(** reading the members of the structs *)
Definition load_str (h : Heap) (p : ptr) : M text :=
  c <- load h p ;; match c with CStr _ s => Ret s | _ => Undef UbUninit end.
(** "tk->str", src/lexer.h:39-45 *)
Definition load_token (h : Heap) (p : ptr) : M ptr :=
  c <- load h p ;; match c with CToken s => Ret s | _ => Undef UbUninit end.
(** "lexer->sequence[i]", src/lexer.h:47-55 *)
Definition load_seq (h : Heap) (p : ptr) : M (list ptr) :=
  c <- load h p ;; match c with CSeq l => Ret l | _ => Undef UbUninit end.
(** "lexer->sequence", src/lexer.h:47-55 *)
Definition load_lexer (h : Heap) (p : ptr) : M ptr :=
  c <- load h p ;; match c with CLexer s => Ret s | _ => Undef UbUninit end.
(** "instr->...", src/opcode.h:25-30 *)
Definition load_instr (h : Heap) (p : ptr) : M unit :=
  c <- load h p ;; match c with CInstr => Ret tt | _ => Undef UbUninit end.
(** "symtab->symbols[i]", "unresolved->refs[i]" (src/symbol_table.h:19-23, src/forward_reference.h:27-31) *)
Definition load_array (h : Heap) (p : ptr) : M (list ptr) :=
  c <- load h p ;; match c with CArray l => Ret l | _ => Undef UbUninit end.
(** "sym->label", "sym->value", src/symbol_table.h:13-17 *)
Definition load_symbol (h : Heap) (p : ptr) : M (ptr * Z) :=
  c <- load h p ;; match c with CSymbol l v => Ret (l, v) | _ => Undef UbUninit end.
(** "symtab->symbols", "->size", "->count", src/symbol_table.h:19-23 *)
Definition load_symtab (h : Heap) (p : ptr) : M (ptr * Z * Z) :=
  c <- load h p ;; match c with CSymtab s n k => Ret (s, n, k) | _ => Undef UbUninit end.
(** "unresolved->refs", "->curr", "->size", src/forward_reference.h:27-31 *)
Definition load_unres (h : Heap) (p : ptr) : M (ptr * Z * Z) :=
  c <- load h p ;; match c with CUnres r k n => Ret (r, k, n) | _ => Undef UbUninit end.

(** "!p", throughout src/ *)
Definition is_null (p : ptr) : bool := match p with None => true | Some _ => false end.

(** ** src/lexer.c *)

(** src/lexer.c:31-45 init_token *)
Definition init_token_h (orc : Oracle) (h : Heap) : M (ptr * Heap) :=
  let '(tk, h1) := malloc orc CUninit h in
  if is_null tk then Ret (None, h1)
  else
    let '(str, h2) := malloc orc (CStr MAX_TOKEN_STR_LEN []) h1 in
    if is_null str then Ret (None, h2)
    else
      h3 <- store h2 tk (CToken str) ;;
      Ret (tk, h3).

(** src/lexer.c:61-65: the loop of init_sequence, [n] turns left *)
Fixpoint init_tokens_h (orc : Oracle) (n : nat) (sequence : ptr) (h : Heap) : M (bool * Heap) :=
  match n with
  | O => Ret (true, h)
  | S n' =>
    '(tk, h1) <- init_token_h orc h ;;
    l <- load_seq h1 sequence ;;
    h2 <- store h1 sequence (CSeq (l ++ [tk])) ;;
    if is_null tk then Ret (false, h2) else init_tokens_h orc n' sequence h2
  end.

(** src/lexer.c:54-67 init_sequence *)
Definition init_sequence_h (orc : Oracle) (h : Heap) : M (ptr * Heap) :=
  let '(sequence, h1) := malloc orc (CSeq []) h in
  if is_null sequence then Ret (None, h1)
  else
    '(ok, h2) <- init_tokens_h orc 8 sequence h1 ;;
    Ret (if ok then sequence else None, h2).

(** src/lexer.c:76-91 init_lexer *)
Definition init_lexer_h (orc : Oracle) (h : Heap) : M (ptr * Heap) :=
  let '(lexer, h1) := malloc orc CUninit h in
  if is_null lexer then Ret (None, h1)
  else
    '(sequence, h2) <- init_sequence_h orc h1 ;;
    if is_null sequence then Ret (None, h2)
    else
      h3 <- store h2 lexer (CLexer sequence) ;;
      Ret (lexer, h3).

(** src/lexer.c:126-133 destroy_token *)
Definition destroy_token_h (h : Heap) (tk : ptr) : M Heap :=
  if is_null tk then Ret h
  else
    str <- load_token h tk ;;
    h1 <- (if is_null str then Ret h else free h str) ;;
    free h1 tk.

(** src/lexer.c:147-150: the loop of destroy_lexer; [n] turns left, from index [i] *)
Fixpoint destroy_tokens_h (n : nat) (i : Z) (lexer : ptr) (h : Heap) : M Heap :=
  match n with
  | O => Ret h
  | S n' =>
    sequence <- load_lexer h lexer ;;
    l <- load_seq h sequence ;;
    curr <- get l i ;;
    h1 <- destroy_token_h h curr ;;
    destroy_tokens_h n' (i + 1) lexer h1
  end.

(** src/lexer.c:141-153 destroy_lexer *)
Definition destroy_lexer_h (h : Heap) (lexer : ptr) : M Heap :=
  if is_null lexer then Ret h
  else
    h1 <- destroy_tokens_h 8 0 lexer h ;;
    sequence <- load_lexer h1 lexer ;;
    h2 <- free h1 sequence ;;
    free h2 lexer.

(** ** src/opcode.c *)

(** src/opcode.c:23-34 init_instruction *)
Definition init_instruction_h (orc : Oracle) (h : Heap) : M (ptr * Heap) :=
  let '(instr, h1) := malloc orc CUninit h in
  if is_null instr then Ret (None, h1)
  else h2 <- store h1 instr CInstr ;; Ret (instr, h2).

(** src/opcode.c:58-62 destroy_instruction *)
Definition destroy_instruction_h (h : Heap) (instr : ptr) : M Heap :=
  if is_null instr then Ret h else free h instr.

(** ** src/symbol_table.c *)

(** src/symbol_table.c:31-44 init_symbol_table *)
Definition init_symbol_table_h (orc : Oracle) (h : Heap) : M (ptr * Heap) :=
  let '(symtab, h1) := malloc orc CUninit h in
  if is_null symtab then Ret (None, h1)
  else
    let '(symbols, h2) := malloc orc (CArray (repeat None 17)) h1 in
    if is_null symbols then Ret (None, h2)
    else
      h3 <- store h2 symtab (CSymtab symbols SYMTAB_BASE_SIZE 0) ;;
      Ret (symtab, h3).

(** src/symbol_table.c:60-66: one turn of the loop of destroy_symbol_table *)
Definition destroy_symbol_h (h : Heap) (curr : ptr) : M Heap :=
  if is_null curr then Ret h
  else
    '(label, _) <- load_symbol h curr ;;
    h1 <- (if is_null label then Ret h else free h label) ;;
    free h1 curr.

(** src/symbol_table.c:59-67: the loop of destroy_symbol_table; [n] turns left *)
Fixpoint destroy_symbols_h (n : nat) (i : Z) (symtab : ptr) (h : Heap) : M Heap :=
  match n with
  | O => Ret h
  | S n' =>
    '(symbols, _, _) <- load_symtab h symtab ;;
    l <- load_array h symbols ;;
    curr <- get l i ;;
    h1 <- destroy_symbol_h h curr ;;
    destroy_symbols_h n' (i + 1) symtab h1
  end.

(** src/symbol_table.c:51-69 destroy_symbol_table *)
Definition destroy_symbol_table_h (h : Heap) (symtab : ptr) : M Heap :=
  if is_null symtab then Ret h
  else
    '(symbols, size, _) <- load_symtab h symtab ;;
    if is_null symbols then Ret h
    else
      h1 <- destroy_symbols_h (Z.to_nat size) 0 symtab h ;;
      h2 <- free h1 symbols ;;
      free h2 symtab.

(** the probing loops of src/symbol_table.c:114-118 and 182-186 *)
Fixpoint probe_free_h (fuel : nat) (slots : list ptr) (size : Z) (hash : Z) : M Z :=
  curr <- get slots hash ;;
  if is_null curr then Ret hash
  else
    match fuel with
    | O => Diverge
    | S fuel' => probe_free_h fuel' slots size (Z.rem (hash + 1) size)
    end.

(** src/symbol_table.c:109-121: one turn of the rehash loop *)
Definition rehash_one_h (h : Heap) (new_symbols : ptr) (new_size : Z) (old_sym : ptr) : M Heap :=
  if is_null old_sym then Ret h
  else
    '(lp, _) <- load_symbol h old_sym ;;
    label <- load_str h lp ;;
    slots <- load_array h new_symbols ;;
    rehash <- probe_free_h (Z.to_nat new_size) slots new_size (djb2_hash label mod new_size) ;;
    slots1 <- put slots rehash old_sym ;;
    store h new_symbols (CArray slots1).

(** src/symbol_table.c:109-122: the rehash loop; [n] turns left *)
Fixpoint rehash_all_h (n : nat) (i : Z) (symtab new_symbols : ptr) (new_size : Z) (h : Heap)
  : M Heap :=
  match n with
  | O => Ret h
  | S n' =>
    '(symbols, _, _) <- load_symtab h symtab ;;
    l <- load_array h symbols ;;
    old_sym <- get l i ;;
    h1 <- rehash_one_h h new_symbols new_size old_sym ;;
    rehash_all_h n' (i + 1) symtab new_symbols new_size h1
  end.

(** src/symbol_table.c:96-127 resize_symbols *)
Definition resize_symbols_h (orc : Oracle) (h : Heap) (symtab : ptr) : M (bool * Heap) :=
  '(symbols, size, count) <- load_symtab h symtab ;;
  twice <- int_of (size * 2) ;;
  new_size <- next_prime twice ;;
  let '(new_symbols, h1) := malloc orc (CArray (repeat None (Z.to_nat new_size))) h in
  if is_null new_symbols then Ret (false, h1)
  else
    h2 <- rehash_all_h (Z.to_nat size) 0 symtab new_symbols new_size h1 ;;
    '(symbols, _, count) <- load_symtab h2 symtab ;;
    h3 <- free h2 symbols ;;
    h4 <- store h3 symtab (CSymtab new_symbols new_size count) ;;
    Ret (true, h4).

(** src/symbol_table.c:139-152 init_symbol *)
Definition init_symbol_h (orc : Oracle) (h : Heap) (label : text) (value : Z) : M (ptr * Heap) :=
  let '(sym, h1) := malloc orc CUninit h in
  if is_null sym then Ret (None, h1)
  else
    let '(lp, h2) := malloc orc (CStr (List.length label + 1) []) h1 in
    if is_null lp then Ret (None, h2)
    else
      h3 <- fill_str h2 lp label ;;
      h4 <- store h3 sym (CSymbol lp value) ;;
      Ret (sym, h4).

(** src/symbol_table.c:165-191 insert_symbol *)
Definition insert_symbol_h (orc : Oracle) (h : Heap) (symtab : ptr) (label : text) (value : Z)
  : M (Z * Heap) :=
  '(_, size, count) <- load_symtab h symtab ;;
  count1 <- int_of (count + 1) ;;
  scaled <- int_of (count1 * 100) ;;
  let ld := Z.quot scaled size in
  '(ok, h1) <- (if 50 <? ld then resize_symbols_h orc h symtab else Ret (true, h)) ;;
  if negb ok then Ret (ERROR_MEMORY_ALLOCATION_FAIL, h1)
  else
    '(new_sym, h2) <- init_symbol_h orc h1 label value ;;
    if is_null new_sym then Ret (ERROR_MEMORY_ALLOCATION_FAIL, h2)
    else
      '(symbols, size, count) <- load_symtab h2 symtab ;;
      slots <- load_array h2 symbols ;;
      hash <- probe_free_h (Z.to_nat size) slots size (djb2_hash label mod size) ;;
      slots1 <- put slots hash new_sym ;;
      h3 <- store h2 symbols (CArray slots1) ;;
      count2 <- int_of (count + 1) ;;
      h4 <- store h3 symtab (CSymtab symbols size count2) ;;
      Ret (SYMBOL_INSERTION_SUCCESS, h4).

(** the symbol a slot points to, as a value of Model_SymbolTable.v *)
Definition read_slot (h : Heap) (p : ptr) : M (option Symbol) :=
  match p with
  | None => Ret None
  | Some _ =>
    '(lp, v) <- load_symbol h p ;;
    label <- load_str h lp ;;
    Ret (Some (mkSym label v))
  end.

(** [f] for every element of a list *)
Fixpoint mapM {A B : Type} (f : A -> M B) (l : list A) : M (list B) :=
  match l with
  | [] => Ret []
  | x :: l' => y <- f x ;; ys <- mapM f l' ;; Ret (y :: ys)
  end.

(** the table a struct SymbolTable * points to, as a value of Model_SymbolTable.v.
    search_symbol (src/symbol_table.c:201-213) reads only the slots it probes; here the whole
    table is read, which is undefined in more cases. *)
Definition read_symtab (h : Heap) (symtab : ptr) : M SymbolTable :=
  '(symbols, size, count) <- load_symtab h symtab ;;
  l <- load_array h symbols ;;
  slots <- mapM (read_slot h) l ;;
  Ret (mkTab slots size count).

(** ** src/forward_reference.c *)

(** src/forward_reference.c:28-43 init_unresolved *)
Definition init_unresolved_h (orc : Oracle) (h : Heap) : M (ptr * Heap) :=
  let '(unresolved, h1) := malloc orc CUninit h in
  if is_null unresolved then Ret (None, h1)
  else
    let '(refs, h2) := malloc orc (CArray (repeat None 8)) h1 in
    if is_null refs then Ret (None, h2)
    else
      h3 <- store h2 unresolved (CUnres refs 0 UNRESOLVED_BASE_SIZE) ;;
      Ret (unresolved, h3).

(** src/forward_reference.c:50-59 destroy_forward_ref *)
Definition destroy_forward_ref_h (h : Heap) (ref : ptr) : M Heap :=
  c <- load h ref ;;
  match c with
  | CRef label line instr _ _ _ _ _ =>
    h1 <- (if is_null label then Ret h else free h label) ;;
    h2 <- (if is_null line then Ret h1 else free h1 line) ;;
    h3 <- (if is_null instr then Ret h2 else destroy_instruction_h h2 instr) ;;
    free h3 ref
  | _ => Undef UbUninit
  end.

(** src/forward_reference.c:74-75: the loop of destroy_unresolved.  The array holds a NULL or
    the loop leaves it; [fuel] turns, exhausting them is [Diverge]. *)
Fixpoint destroy_refs_h (fuel : nat) (i : Z) (unresolved : ptr) (h : Heap) : M Heap :=
  match fuel with
  | O => Diverge
  | S fuel' =>
    '(refs, _, _) <- load_unres h unresolved ;;
    l <- load_array h refs ;;
    ref <- get l i ;;
    if is_null ref then Ret h
    else
      h1 <- destroy_forward_ref_h h ref ;;
      destroy_refs_h fuel' (i + 1) unresolved h1
  end.

(** src/forward_reference.c:66-78 destroy_unresolved *)
Definition destroy_unresolved_h (h : Heap) (unresolved : ptr) : M Heap :=
  if is_null unresolved then Ret h
  else
    '(refs, _, size) <- load_unres h unresolved ;;
    if is_null refs then Ret h
    else
      l <- load_array h refs ;;
      h1 <- destroy_refs_h (S (List.length l)) 0 unresolved h ;;
      h2 <- free h1 refs ;;
      free h2 unresolved.

(** src/forward_reference.c:98-156 create_forward_ref *)
Definition create_forward_ref_h (orc : Oracle) (h : Heap) (buffer : text) (instr : Instruction)
    (operand : Token) (operand_status pc line_num : Z) : M (ptr * Heap) :=
  let '(ref, h1) := malloc orc CUninit h in
  if is_null ref then Ret (None, h1)
  else
    line <- strip_source_line buffer ;;
    let '(source_line, h2) := malloc orc (CStr (List.length line + 1) []) h1 in
    if is_null source_line then Ret (None, h2)
    else
      h3 <- fill_str h2 source_line line ;;
      let '(label, h4) := malloc orc (CStr (List.length (tk_str operand) + 1) []) h3 in
      if is_null label then Ret (None, h4)
      else
        h5 <- fill_str h4 label (tk_str operand) ;;
        '(new_instr, h6) <- init_instruction_h orc h5 ;;
        if is_null new_instr then Ret (None, h6)
        else
          match tk_loc operand with
          | None => Undef UbNull
          | Some dist_to_operand =>
            h7 <- store h6 ref
                    (CRef label source_line new_instr
                          (mkInstr (i_mnemonic instr) (i_bitfield instr) (i_bitflag instr)
                                   (i_opcode instr))
                          pc line_num operand_status dist_to_operand) ;;
            Ret (ref, h7)
          end.

(** src/forward_reference.c:166-179 resize_unresolved.  When realloc fails the old block stays
    allocated and "unresolved->refs" is set to NULL.  When it succeeds the old elements are
    copied to the new block and the old one is freed. *)
Definition resize_unresolved_h (orc : Oracle) (h : Heap) (unresolved : ptr) : M (bool * Heap) :=
  '(refs, curr, size) <- load_unres h unresolved ;;
  new_size <- int_of (2 * size) ;;
  old <- load_array h refs ;;
  let '(new_refs, h1) :=
    malloc orc (CArray (firstn (Z.to_nat size) old ++ repeat None (Z.to_nat size))) h in
  if is_null new_refs then
    h2 <- store h1 unresolved (CUnres None curr size) ;;
    Ret (false, h2)
  else
    h2 <- free h1 refs ;;
    h3 <- store h2 unresolved (CUnres new_refs curr new_size) ;;
    Ret (true, h3).

(** src/forward_reference.c:190-200 add_forward_ref *)
Definition add_forward_ref_h (orc : Oracle) (h : Heap) (unresolved ref : ptr) : M (Z * Heap) :=
  '(_, curr, size) <- load_unres h unresolved ;;
  '(ok, h1) <- (if curr =? size - 1 then resize_unresolved_h orc h unresolved
                else Ret (true, h)) ;;
  if negb ok then Ret (ERROR_MEMORY_ALLOCATION_FAIL, h1)
  else
    '(refs, curr, size) <- load_unres h1 unresolved ;;
    l <- load_array h1 refs ;;
    l1 <- put l curr ref ;;
    h2 <- store h1 refs (CArray l1) ;;
    curr1 <- int_of (curr + 1) ;;
    h3 <- store h2 unresolved (CUnres refs curr1 size) ;;
    Ret (FORWARD_REFERENCE_INSERTION_SUCCESS, h3).

(** the members of the ForwardRef [p] points to, as a value of Model_ForwardRef.v *)
Definition read_ref (h : Heap) (p : ptr) : M ForwardRef :=
  c <- load h p ;;
  match c with
  | CRef lp sp ip iv pc line_num status loc =>
    label <- load_str h lp ;;
    line <- load_str h sp ;;
    _ <- load_instr h ip ;;
    Ret (mkRef label line iv pc line_num status loc)
  | _ => Undef UbUninit
  end.

(** ** src/main.c *)

(** the pointer variables of main, src/main.c:152-158 *)
Record Ptrs := mkPtrs {
  p_inf : ptr; p_outf : ptr; p_lexer : ptr; p_tk : ptr; p_instr : ptr;
  p_symtab : ptr; p_unres : ptr }.

(** src/main.c:122-141 abort_gaia, without the returned constant *)
Definition abort_gaia_h (h : Heap) (p : Ptrs) : M Heap :=
  h1 <- (if is_null (p_inf p) then Ret h else fclose h (p_inf p)) ;;
  h2 <- (if is_null (p_outf p) then Ret h1 else fclose h1 (p_outf p)) ;;
  h3 <- (if is_null (p_lexer p) then Ret h2 else destroy_lexer_h h2 (p_lexer p)) ;;
  h4 <- (if is_null (p_tk p) then Ret h3 else destroy_token_h h3 (p_tk p)) ;;
  h5 <- (if is_null (p_instr p) then Ret h4 else destroy_instruction_h h4 (p_instr p)) ;;
  h6 <- (if is_null (p_symtab p) then Ret h5 else destroy_symbol_table_h h5 (p_symtab p)) ;;
  if is_null (p_unres p) then Ret h6 else destroy_unresolved_h h6 (p_unres p).

(** src/main.c:283-289: the end of a successful run *)
Definition finish_h (h : Heap) (p : Ptrs) : M Heap :=
  h1 <- fclose h (p_inf p) ;;
  h2 <- fclose h1 (p_outf p) ;;
  h3 <- destroy_lexer_h h2 (p_lexer p) ;;
  h4 <- destroy_token_h h3 (p_tk p) ;;
  h5 <- destroy_instruction_h h4 (p_instr p) ;;
  h6 <- destroy_symbol_table_h h5 (p_symtab p) ;;
  destroy_unresolved_h h6 (p_unres p).

(** the memory the lexer, the parser, the generator and the standard library use while a line is
    processed: the two FILEs, the Lexer with its eight tokens, the running token, the
    Instruction (src/main.c:188-259).  Undefined if one of them is not allocated. *)
Definition touch_token (h : Heap) (tk : ptr) : M unit :=
  s <- load_token h tk ;; _ <- load_str h s ;; Ret tt.
(** src/main.c:188-259: all of this memory *)
Definition touch (h : Heap) (p : Ptrs) : M unit :=
  _ <- load h (p_inf p) ;;
  _ <- load h (p_outf p) ;;
  s <- load_lexer h (p_lexer p) ;;
  l <- load_seq h s ;;
  if Nat.ltb (List.length l) 8 then Undef UbIndex
  else
    _ <- mapM (touch_token h) l ;;
    _ <- touch_token h (p_tk p) ;;
    load_instr h (p_instr p).

(** the variables of main that are not pointers, and the contents of the Lexer, the running
    token and the Instruction (src/main.c:178-187; as in [St] of Model_Main.v, without the
    symbol table and the pending references, which are in the heap) *)
Record StH := mkStH {
  m_pc : Z;
  m_line_num : Z;
  m_written : Z;
  m_total : Z;
  m_out : OFile;
  m_lexer : Lexer;
  m_tk : Token;
  m_instr : Instruction;
  m_stdout : text }.

(** how one turn of the loop of src/main.c:188-260 ends *)
Inductive LineResH :=
| NextH (s : StH)
| FinishH (s : StH)
| AbortH (s : StH).

(** the three times written end of parse_label_declaration (src/parser.c:318-327, 331-342,
    347-357), see [declare] in Model_Parser.v *)
Definition declare_h (orc : Oracle) (h : Heap) (symtab : ptr) (lexer : Lexer)
    (index : Z) (found : Z) (v : Z) : M (Z * Lexer * Heap * text) :=
  if negb (found =? ERROR_SYMBOL_NOT_FOUND) then
    '(code, lexer1, out) <- syntax_error lexer ERROR_LABEL_REDEFINITION index ;;
    Ret (code, lexer1, h, out)
  else
    lexer1 <- set_value_at lexer index v ;;
    label <- get (lx_seq lexer1) index ;;
    '(code, h1) <- insert_symbol_h orc h symtab (tk_str label) (tk_value label) ;;
    Ret (code, lexer1, h1, []).

(** src/parser.c:306-363 parse_label_declaration *)
Definition parse_label_declaration_h (orc : Oracle) (h : Heap) (symtab : ptr) (lexer : Lexer)
    (pc : Z) : M (Z * Lexer * Heap * text) :=
  tab <- read_symtab h symtab ;;
  label <- get (lx_seq lexer) 0 ;;
  define_label <- get (lx_seq lexer) 1 ;;
  found <- search_symbol tab (tk_str label) ;;
  found_define <- search_symbol tab (tk_str define_label) ;;
  let t1 := tk_type define_label in
  if ty_eqb t1 TOKEN_NULL || ty_eqb t1 TOKEN_INSTRUCTION then
    declare_h orc h symtab lexer 0 found pc
  else if ty_eqb t1 TOKEN_EQUAL_SIGN || ty_eqb t1 TOKEN_EQU_DIRECTIVE then
    v <- value_at lexer 2 ;;
    declare_h orc h symtab lexer 0 found v
  else if ty_eqb (tk_type label) TOKEN_DEFINE_DIRECTIVE then
    v <- value_at lexer 2 ;;
    declare_h orc h symtab lexer 1 found_define v
  else
    '(code, lexer1, out) <- plain_error lexer ERROR_UNKNOWN ;;
    Ret (code, lexer1, h, out).

(** src/main.c:215-259, the instruction part of the body of the loop *)
Definition process_instruction_h (orc : Oracle) (p : Ptrs) (buffer : text) (st : StH) (h : Heap)
  : M (LineResH * Heap) :=
  tab <- read_symtab h (p_symtab p) ;;
  operand <- find_operand (m_lexer st) ;;
  '(operand_status, lexer1, out1) <- parse_operand (m_lexer st) (m_instr st) operand tab ;;
  let st1 := mkStH (m_pc st) (m_line_num st) (m_written st) (m_total st) (m_out st) lexer1
                   (m_tk st) (m_instr st) (m_stdout st ++ out1) in
  if IS_ERROR operand_status then Ret (AbortH st1, h)
  else
    let written1 := if operand_status =? BRANCH_FORWARD_REFERENCE then 2
                    else if operand_status =? JUMP_FORWARD_REFERENCE then 3
                    else m_written st in
    '(return_code, instr2, out2) <- parse_addr_mode lexer1 (m_instr st) operand operand_status ;;
    let st2 := mkStH (m_pc st) (m_line_num st) written1 (m_total st) (m_out st) lexer1
                     (m_tk st) instr2 (m_stdout st ++ out1 ++ out2) in
    '(pending, h1) <-
      (if return_code =? FORWARD_REFERENCE then
         match operand with
         | None => Undef UbNull
         | Some i =>
           tok <- get (lx_seq lexer1) i ;;
           '(ref, h1) <- create_forward_ref_h orc h buffer instr2 tok operand_status
                                              (m_pc st) (m_line_num st) ;;
           if is_null ref then Ret (None, h1)
           else
             '(code, h2) <- add_forward_ref_h orc h1 (p_unres p) ref ;;
             if IS_ERROR code then Ret (None, h2)
             else
               let f1 := fputc 0 (fputc 0 (m_out st)) in
               Ret (Some (if written1 =? 3 then fputc 0 f1 else f1), h2)
         end
       else if IS_ERROR return_code then Ret (None, h)
       else Ret (Some (m_out st), h)) ;;
    match pending with
    | None => Ret (AbortH st2, h1)
    | Some outf2 =>
      '(written_bytes, outf3, lexer3, instr3, out3) <-
        (if (operand_status =? BRANCH_OPERAND) || (operand_status =? JUMP_OPERAND) then
           resolve_label_ref outf2 lexer1 instr2 operand operand_status tab (m_pc st)
         else
           otok <- (match operand with
                    | None => Ret None
                    | Some i => t <- get (lx_seq lexer1) i ;; Ret (Some t)
                    end) ;;
           let '(n, f, i3) := generate_code outf2 instr2 otok (m_pc st) in
           Ret (n, f, lexer1, i3, [])) ;;
      let stdout3 := m_stdout st ++ out1 ++ out2 ++ out3 in
      if IS_ERROR written_bytes then
        Ret (AbortH (mkStH (m_pc st) (m_line_num st) written_bytes (m_total st) outf3 lexer3
                           (m_tk st) instr3 stdout3), h1)
      else
        line_num <- int_of (m_line_num st + 1) ;;
        pc <- int_of (m_pc st + written_bytes) ;;
        total <- int_of (m_total st + written_bytes) ;;
        Ret (NextH (mkStH pc line_num written_bytes total outf3 lexer3 (m_tk st) instr3 stdout3),
             h1)
    end.

(** src/main.c:189-259, one turn of the loop *)
Definition process_line_h (orc : Oracle) (p : Ptrs) (buffer : text) (st : StH) (h : Heap)
  : M (LineResH * Heap) :=
  _ <- touch h p ;;
  '(return_code, lexer1, tk1, instr1, out1) <-
     lex_line buffer (m_lexer st) (m_tk st) (m_instr st) (m_line_num st) ;;
  let upd_st lexer pc out :=
    mkStH pc (m_line_num st) (m_written st) (m_total st)
          (m_out st) lexer tk1 instr1 (m_stdout st ++ out) in
  if IS_ERROR return_code then Ret (AbortH (upd_st lexer1 (m_pc st) out1), h)
  else
    '(return_code, lexer2, out2) <- parse_line lexer1 ;;
    if IS_ERROR return_code then Ret (AbortH (upd_st lexer2 (m_pc st) (out1 ++ out2)), h)
    else
      first <- get (lx_seq lexer2) 0 ;;
      let rest (st' : StH) (h' : Heap) : M (LineResH * Heap) :=
        match i_mnemonic instr1 with
        | NULL_MNEMONIC =>
          line_num <- int_of (m_line_num st' + 1) ;;
          Ret (NextH (mkStH (m_pc st') line_num (m_written st') (m_total st') (m_out st')
                            (m_lexer st') (m_tk st') (m_instr st') (m_stdout st')), h')
        | _ => process_instruction_h orc p buffer st' h'
        end in
      match tk_type first with
      | TOKEN_LABEL | TOKEN_DEFINE_DIRECTIVE =>
        '(code, lexer3, h3, out3) <-
           parse_label_declaration_h orc h (p_symtab p) lexer2 (m_pc st) ;;
        let st' := upd_st lexer3 (m_pc st) (out1 ++ out2 ++ out3) in
        if IS_ERROR code then Ret (AbortH st', h3) else rest st' h3
      | TOKEN_BASE | TOKEN_ORG_DIRECTIVE => rest (upd_st lexer2 (tk_value first) (out1 ++ out2)) h
      | TOKEN_END_DIRECTIVE => Ret (FinishH (upd_st lexer2 (m_pc st) (out1 ++ out2)), h)
      | _ => rest (upd_st lexer2 (m_pc st) (out1 ++ out2)) h
      end.

(** src/main.c:188-260, the loop over the lines *)
Fixpoint run_lines_h (orc : Oracle) (p : Ptrs) (lines : list text) (st : StH) (h : Heap)
  : M (LineResH * Heap) :=
  match lines with
  | [] => Ret (FinishH st, h)
  | l :: lines' =>
    '(r, h1) <- process_line_h orc p (cstring l) st h ;;
    match r with
    | NextH st' => run_lines_h orc p lines' st' h1
    | _ => Ret (r, h1)
    end
  end.

(** what src/main.c:267-276 change *)
Definition m_set_out (st : StH) (f : OFile) (out : text) : StH :=
  mkStH (m_pc st) (m_line_num st) (m_written st) (m_total st) f (m_lexer st) (m_tk st)
        (m_instr st) (m_stdout st ++ out).

(** src/main.c:262-277: the loop that resolves the forward references; [n] turns left *)
Fixpoint resolve_all_h (file_name : text) (p : Ptrs) (n : nat) (i : Z) (st : StH) (h : Heap)
  : M LineResH :=
  match n with
  | O => Ret (FinishH st)
  | S n' =>
    _ <- touch h p ;;
    '(refs, _, _) <- load_unres h (p_unres p) ;;
    l <- load_array h refs ;;
    rp <- get l i ;;
    ref <- read_ref h rp ;;
    tab <- read_symtab h (p_symtab p) ;;
    dest_pc <- search_symbol tab (fr_label ref) ;;
    if IS_ERROR dest_pc then
      out <- print_error (Some (fr_source_line ref)) ERROR_MISSING_LABEL_DEFINITION
                         (Some (fr_operand_location ref)) file_name (fr_line_num ref) ;;
      Ret (AbortH (m_set_out st (m_out st) out))
    else
      '(written_bytes, f, out) <- resolve_forward_ref (m_out st) ref (m_lexer st) dest_pc ;;
      let st' := m_set_out st f out in
      if IS_ERROR written_bytes then Ret (AbortH st')
      else resolve_all_h file_name p n' (i + 1) st' h
  end.

(** src/main.c:178-187: the initial values *)
Definition init_state_h (file_name : text) : StH :=
  mkStH 0 1 0 0 (mkOFile [] 0) (init_lexer file_name) init_token init_instruction [].

(** src/main.c:178-290: from the opened files to the exit of the program *)
Definition assemble_h (orc : Oracle) (p : Ptrs) (file_name : text) (source : text) (h : Heap)
  : M (Outcome * Heap) :=
  let abort st h' :=
    h1 <- abort_gaia_h h' p ;;
    Ret (mkOutcome EXIT_FAILURE (m_stdout st) (of_data (m_out st)), h1) in
  '(r, h1) <- run_lines_h orc p (chunks source) (init_state_h file_name) h ;;
  match r with
  | AbortH st => abort st h1
  | NextH st | FinishH st =>
    '(_, curr, _) <- load_unres h1 (p_unres p) ;;
    r2 <- resolve_all_h file_name p (Z.to_nat curr) 0 st h1 ;;
    match r2 with
    | AbortH st2 => abort st2 h1
    | NextH st2 | FinishH st2 =>
      tab <- read_symtab h1 (p_symtab p) ;;
      h2 <- finish_h h1 p ;;
      Ret (mkOutcome EXIT_SUCCESS (m_stdout st2 ++ summary (m_total st2) (tab_count tab))
                     (of_data (m_out st2)), h2)
    end
  end.

(** src/main.c:143-291 main, after argp_parse; also returns the memory at the exit.  Files as
    in [main] of Model_Main.v. *)
Definition main_h (orc : Oracle) (fs : FileSystem) (src_file out_file : text)
  : M (ProcResult * Heap) :=
  '(lexer, h1) <- init_lexer_h orc empty_heap ;;
  '(tk, h2) <- init_token_h orc h1 ;;
  '(instr, h3) <- init_instruction_h orc h2 ;;
  '(symtab, h4) <- init_symbol_table_h orc h3 ;;
  '(unresolved, h5) <- init_unresolved_h orc h4 ;;
  let fail code (inf : ptr) h :=
    out <- print_error None code None src_file (-1) ;;
    h' <- abort_gaia_h h (mkPtrs inf None lexer tk instr symtab unresolved) ;;
    Ret (EXIT_FAILURE, out, fs, h') in
  if is_null lexer || is_null tk || is_null instr || is_null symtab || is_null unresolved then
    fail ERROR_MEMORY_ALLOCATION_FAIL None h5
  else
    match fs_file fs src_file with
    | None => fail ERROR_FILE_OPEN_FAIL None h5
    | Some _ =>
      let '(inf, h6) := new_file h5 in
      if negb (fs_creatable fs out_file) then fail ERROR_BINARY_FILE_CREATION_FAIL inf h6
      else
        let '(outf, h7) := new_file h6 in
        let fs1 := fs_write fs out_file [] in
        let source := match fs_file fs1 src_file with Some c => map chr c | None => [] end in
        '(o, h8) <- assemble_h orc (mkPtrs inf outf lexer tk instr symtab unresolved) src_file
                               source h7 ;;
        Ret (exit_code o, stdout o, fs_write fs1 out_file (binary o), h8)
    end.

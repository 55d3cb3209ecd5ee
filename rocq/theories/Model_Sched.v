(** Model_Sched.v -- several processes of the assembler on one file system (src/main.c:143-291), cut into steps: one step
    opens a file, or is one turn of the loop of lines 188-260, or one turn of the loop of lines 263-277.  In a step the
    process uses the files as they are at that moment, whoever wrote them. *)
From Verif Require Import Base Model_Opcode Model_Error Model_Lexer Model_SymbolTable
  Model_Parser Model_ForwardRef Model_Generator Model_Main.

(** Not in the code: one call of the program, its two file names (src/main.c:145) and the outcomes of its allocations *)
Record Job := mkJob { j_src : text; j_out : text; j_init : bool; j_env : Z -> AllocEnv }.

(** where a process is *)
Inductive Proc :=
| Starting                                       (* src/main.c:143-164 *)
| Opened                                         (* the source is open, src/main.c:171 *)
| Reading (offset : nat) (st : St)               (* before fgets, src/main.c:188; [offset] bytes were read *)
| Resolving (left : nat) (i : Z) (st : St)       (* src/main.c:263, [left] references to go *)
| Exited (status : Z) (printed : text).

(** Not in the code: the bytes of a file *)
Definition content (fs : FileSystem) (name : text) : list Z :=
  match fs_file fs name with Some c => c | None => [] end.

(** the output FILE of src/main.c:152 when the process goes on: its own position in the bytes that are in the file *)
Definition st_load (fs : FileSystem) (out : text) (st : St) : St :=
  mkSt (st_symtab st) (st_unresolved st) (st_pc st) (st_line_num st) (st_written st)
       (st_total st) (mkOFile (content fs out) (of_pos (st_out st))) (st_lexer st) (st_tk st) (st_instr st) (st_stdout st).

(** ... and when the step is over *)
Definition st_store (fs : FileSystem) (out : text) (st : St) : FileSystem := fs_write fs out (of_data (st_out st)).

(** src/main.c:262-263, the beginning of the second loop *)
Definition to_resolve (st : St) : Proc := Resolving (Z.to_nat (un_curr (st_unresolved st))) 0 st.

(** one step of a process *)
Definition pstep (j : Job) (fs : FileSystem) (p : Proc) : M (FileSystem * Proc) :=
  match p with
  | Starting =>
    (* src/main.c:154-169 *)
    if negb (j_init j) then
      out <- print_error None ERROR_MEMORY_ALLOCATION_FAIL None (j_src j) (-1) ;; Ret (fs, Exited EXIT_FAILURE out)
    else match fs_file fs (j_src j) with
    | None => out <- print_error None ERROR_FILE_OPEN_FAIL None (j_src j) (-1) ;; Ret (fs, Exited EXIT_FAILURE out)
    | Some _ => Ret (fs, Opened)
    end
  | Opened =>
    (* src/main.c:171-187 *)
    if negb (fs_creatable fs (j_out j)) then
      out <- print_error None ERROR_BINARY_FILE_CREATION_FAIL None (j_src j) (-1) ;; Ret (fs, Exited EXIT_FAILURE out)
    else Ret (fs_write fs (j_out j) [], Reading 0 (init_state (j_src j)))
  | Reading k st =>
    (* src/main.c:188-260 *)
    match skipn k (content fs (j_src j)) with
    | [] => Ret (fs, to_resolve st)
    | bytes =>
      let line := fst (fgets (MAX_BUFFER_SIZE - 1) (map chr bytes)) in
      r <- process_line (j_env j (st_line_num st)) (cstring line) (st_load fs (j_out j) st) ;;
      match r with
      | Next st' => Ret (st_store fs (j_out j) st', Reading (k + List.length line) st')
      | Finish st' => Ret (st_store fs (j_out j) st', to_resolve st')
      | Abort st' => Ret (st_store fs (j_out j) st', Exited EXIT_FAILURE (st_stdout st'))
      end
    end
  | Resolving O i st =>
    (* src/main.c:279-290 *)
    Ret (fs, Exited EXIT_SUCCESS (st_stdout st ++ summary (st_total st) (tab_count (st_symtab st))))
  | Resolving (S n) i st =>
    (* src/main.c:264-276 *)
    r <- resolve_all (j_src j) 1 i (st_load fs (j_out j) st) ;;
    match r with
    | Next st' | Finish st' => Ret (st_store fs (j_out j) st', Resolving n (i + 1) st')
    | Abort st' => Ret (st_store fs (j_out j) st', Exited EXIT_FAILURE (st_stdout st'))
    end
  | Exited c t => Ret (fs, p)
  end.

(** Not in the code: the process has not exited *)
Definition running (p : Proc) : Prop := match p with Exited _ _ => False | _ => True end.

(** Not in the code: process [i] makes a step *)
Definition set_proc (ps : nat -> Proc) (i : nat) (p : Proc) : nat -> Proc := fun k => if Nat.eqb k i then p else ps k.

(** [history jobs fs0 who fs ps]: the processes of [jobs], all started on the files [fs0], made steps in the order [who]
    (the last one first); now the files are [fs] and the processes are at [ps].  A process can be slow, or killed (it then
    makes no further step). *)
Inductive history (jobs : nat -> Job) (fs0 : FileSystem) : list nat -> FileSystem -> (nat -> Proc) -> Prop :=
| history_start : history jobs fs0 [] fs0 (fun _ => Starting)
| history_step who fs ps i fs' p :
    history jobs fs0 who fs ps -> running (ps i) -> pstep (jobs i) fs (ps i) = Ret (fs', p) ->
    history jobs fs0 (i :: who) fs' (set_proc ps i p).

(** Model_Disk.v -- src/main.c on a file system with links: a name leads to a path through symbolic links, several paths
    may be one file (hard links).  Model_Main's file system, where every name is a file of its own, is the special case
    without links. *)
From Verif Require Import Base Model_Opcode Model_Error Model_Main Model_Args Model_Argv.

(** Not in the code, the file system the C library works on: [dk_leads] follows the symbolic links of a name ([None]: no
    such directory, or a loop of links); [dk_entry] tells which file stands at a path; [dk_reads], [dk_writes] and [dk_creates]
    are the permissions; [dk_next] is the number of the next file that is created. *)
Record Disk := mkDisk {
  dk_leads : text -> option text;
  dk_entry : text -> option nat;
  dk_data : nat -> list Z;
  dk_reads : nat -> bool;
  dk_writes : nat -> bool;
  dk_creates : text -> bool;
  dk_next : nat }.

(** the file a name leads to *)
Definition file_at (d : Disk) (name : text) : option nat :=
  match dk_leads d name with Some p => dk_entry d p | None => None end.

(** a file gets new contents *)
Definition set_data (d : Disk) (f : nat) (c : list Z) : Disk :=
  mkDisk (dk_leads d) (dk_entry d) (fun g => if Nat.eqb g f then c else dk_data d g) (dk_reads d) (dk_writes d) (dk_creates d) (dk_next d).

(** src/main.c:165 fopen(src_file, "r") *)
Definition open_read (d : Disk) (name : text) : option nat :=
  match file_at d name with
  | Some f => if dk_reads d f then Some f else None
  | None => None
  end.

(** src/main.c:171 fopen(out_file, "wb"): an existing file is emptied, a missing one is created at the path the name leads
    to *)
Definition open_write (d : Disk) (name : text) : option (nat * Disk) :=
  match dk_leads d name with
  | None => None
  | Some p =>
    match dk_entry d p with
    | Some f => if dk_writes d f then Some (f, set_data d f []) else None
    | None =>
      if dk_creates d p then
        let f := dk_next d in
        Some (f, mkDisk (dk_leads d) (fun q => if text_eqb q p then Some f else dk_entry d q)
                        (fun g => if Nat.eqb g f then [] else dk_data d g) (dk_reads d) (dk_writes d) (dk_creates d) (S f))
      else None
    end
  end.

(** src/main.c:154-291 main, after argp_parse; as Model_Main.main *)
Definition main_disk (init_ok : bool) (env : Z -> AllocEnv) (d : Disk) (src_file out_file : text) : M (Z * text * Disk) :=
  if negb init_ok then
    out <- print_error None ERROR_MEMORY_ALLOCATION_FAIL None src_file (-1) ;;
    Ret (EXIT_FAILURE, out, d)
  else
    match open_read d src_file with
    | None =>
      out <- print_error None ERROR_FILE_OPEN_FAIL None src_file (-1) ;;
      Ret (EXIT_FAILURE, out, d)
    | Some f =>
      match open_write d out_file with
      | None =>
        out <- print_error None ERROR_BINARY_FILE_CREATION_FAIL None src_file (-1) ;;
        Ret (EXIT_FAILURE, out, d)
      | Some (g, d1) =>
        o <- assemble env src_file (map chr (dk_data d1 f)) ;;
        Ret (exit_code o, stdout o, set_data d1 g (binary o))
      end
    end.

(** src/main.c:143-291 main(argc, argv); as Model_Argv.run_argv *)
Definition process (info : Z -> text) (init_ok : bool) (env : Z -> AllocEnv) (d : Disk) (table : list ArgpOption)
    (words : list text) : M (Z * text * Disk) :=
  n <- count_options table ;;
  let t := firstn (Z.to_nat n) table in
  let '(found, args) := getopt (short_options t) (long_options t) words in
  match decide found args with
  | DBad => Ret (EX_USAGE, [], d)
  | DInfo k => Ret (EXIT_SUCCESS, info k, d)
  | DRun events =>
    match parse_events events 0 default_args with
    | None => Ret (EX_USAGE, [], d)
    | Some a =>
      match arg_src a with
      | None => Undef UbNull
      | Some src => main_disk init_ok env d src (arg_out a)
      end
    end
  end.

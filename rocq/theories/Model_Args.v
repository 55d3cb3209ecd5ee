(** Model_Args.v -- model of the command line of src/main.c:18-70 and 143-150, with the part
    of the argp library it relies on. *)
From Verif Require Import Base Model_Opcode Model_Error Model_Main.

(** struct argp_option (argp.h); [None] is a NULL name, arg or doc *)
Record ArgpOption := mkOption {
  opt_name : option text;
  opt_key : Z;
  opt_arg : option text;
  opt_flags : Z;
  opt_doc : option text;
  opt_group : Z }.

(** src/main.c:24-27 options[]: the whole array *)
Definition options : list ArgpOption :=
  [ mkOption (Some (T "output")) 111 (Some (T "FILE")) 0
             (Some (T "Place assembled binary into <FILE>")) 0 ].

(** argp: an entry is the end of the table if all of these are zero
    (__option_is_end in argp-fmtstream.h / argp-parse.c of glibc) *)
Definition option_is_end (o : ArgpOption) : bool :=
  match opt_key o =? 0, opt_name o, opt_doc o, opt_group o =? 0 with
  | true, None, None, true => true
  | _, _, _, _ => false
  end.

(** argp: "for (opt = argp->options; !__option_is_end (opt); opt++)": the number of
    entries before the end of the table.  Reading behind the array is undefined.  The loop
    cannot make more turns than the array has entries, plus one. *)
Fixpoint scan_options (fuel : nat) (table : list ArgpOption) (i : Z) : M Z :=
  match fuel with
  | O => Diverge
  | S k =>
    o <- get table i ;;
    if option_is_end o then Ret i else scan_options k table (i + 1)
  end.
(** argp: the whole scan *)
Definition count_options (table : list ArgpOption) : M Z := scan_options (S (List.length table)) table 0.

(** src/main.c:30-34 struct Arguments *)
Record Arguments := mkArgs { arg_src : option text; arg_out : text }.

(** what argp hands to parse_opt: an option -o (or --output) with its value, an argument,
    the end *)
Inductive Event := EvOutput (value : text) | EvArg (value : text) | EvEnd | EvOther (key : Z).

(** how src/main.c:39-70 parse_opt returns *)
Inductive OptResult :=
| OptOk (a : Arguments)     (* return 0 *)
| OptUnknown                (* return ARGP_ERR_UNKNOWN *)
| OptUsage.                 (* argp_usage(state): prints the usage, exits, does not return *)

(** src/main.c:39-70 parse_opt; [arg_num] is state->arg_num *)
Definition parse_opt (e : Event) (arg_num : Z) (args : Arguments) : OptResult :=
  match e with
  | EvOutput v => OptOk (mkArgs (arg_src args) v)
  | EvArg v => if 1 <=? arg_num then OptUsage else OptOk (mkArgs (Some v) (arg_out args))
  | EvEnd => if arg_num =? 0 then OptUsage else OptOk args
  | EvOther _ => OptUnknown
  end.

(** argp_parse: parse_opt for every element of the command line; arg_num counts the
    arguments handed over so far; then the end.  [None]: the usage was printed and the
    program has exited.  ARGP_ERR_UNKNOWN for the keys the library itself adds (INIT,
    SUCCESS, ...) is ignored by the library; unknown options of the user do not reach
    parse_opt, the library rejects them. *)
Fixpoint parse_events (events : list Event) (arg_num : Z) (args : Arguments) : option Arguments :=
  match events with
  | [] =>
    match parse_opt EvEnd arg_num args with
    | OptOk a => Some a
    | OptUnknown => Some args
    | OptUsage => None
    end
  | e :: events' =>
    let next := match e with EvArg _ => arg_num + 1 | _ => arg_num end in
    match parse_opt e arg_num args with
    | OptOk a => parse_events events' next a
    | OptUnknown => parse_events events' next args
    | OptUsage => None
    end
  end.

(** src/main.c:145-146 *)
Definition default_args : Arguments := mkArgs None (T "a.out").

(** exit status of argp_usage: argp_err_exit_status, EX_USAGE *)
Definition EX_USAGE : Z := 64.

(** src/main.c:143-291 main, from the elements of the command line, for a table of options
    the library can read.  The text of the usage message, printed on stderr, is not
    modelled. *)
Definition run (init_ok : bool) (env : Z -> AllocEnv) (fs : FileSystem) (table : list ArgpOption)
    (events : list Event) : M ProcResult :=
  _ <- count_options table ;;
  match parse_events events 0 default_args with
  | None => Ret (EX_USAGE, [], fs)
  | Some a =>
    match arg_src a with
    | None => Undef UbNull
    | Some src => main init_ok env fs src (arg_out a)
    end
  end.

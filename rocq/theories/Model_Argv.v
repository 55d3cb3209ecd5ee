(** Model_Argv.v -- from the words of the command line to the keys of Model_Args: src/main.c:148
    argp_parse(&argp, argc, argv, 0, NULL, &args), that is, the part of argp-parse.c and getopt.c of
    glibc that this call uses (flags 0: options may stand behind arguments, unless the environment variable
    POSIXLY_CORRECT is set: getopt_ordered at the end of this file). *)
From Verif Require Import Base Model_Opcode Model_Error Model_Main Model_Args.

(** getopt.h: struct option, has_arg and val; [val] is the key argp hands to parse_opt *)
Inductive HasArg := NoArgument | RequiredArgument | OptionalArgument.
(** getopt.h: struct option (the name, has_arg and val) *)
Record LongOption := mkLong { lo_name : text; lo_has_arg : HasArg; lo_val : Z }.

Definition KEY_HELP : Z := 63.      (* argp-parse.c: '?' *)
Definition KEY_VERSION : Z := 86.   (* argp-parse.c: 'V' *)
Definition OPT_PROGNAME : Z := -2.  (* argp-parse.c:75 *)
Definition OPT_USAGE : Z := -3.     (* argp-parse.c:76 *)
Definition OPT_HANG : Z := -4.      (* argp-parse.c:77 *)

(** argp-parse.c: argp_default_options and argp_version_options, which argp_parse adds (the latter
    because src/main.c:19 sets argp_program_version) *)
Definition builtin : list LongOption :=
  [ mkLong (T "help") NoArgument KEY_HELP;
    mkLong (T "usage") NoArgument OPT_USAGE;
    mkLong (T "program-name") RequiredArgument OPT_PROGNAME;
    mkLong (T "HANG") OptionalArgument OPT_HANG;
    mkLong (T "version") NoArgument KEY_VERSION ].

(** argp-parse.c convert_options: the options of the user's table, for getopt *)
Definition long_of (o : ArgpOption) : list LongOption :=
  match opt_name o with
  | Some n => [mkLong n (match opt_arg o with Some _ => RequiredArgument | None => NoArgument end) (opt_key o)]
  | None => []
  end.
(** argp-parse.c convert_options and parser_init: the user's long options (src/main.c:24-27), then those of the library *)
Definition long_options (table : list ArgpOption) : list LongOption := List.concat (map long_of table) ++ builtin.

(** argp-parse.c convert_options: the short options, as (character, takes a value) *)
Definition short_options (table : list ArgpOption) : list (Z * bool) :=
  map (fun o => (opt_key o, match opt_arg o with Some _ => true | None => false end))
      (filter (fun o => (32 <=? opt_key o) && (opt_key o <=? 126)) table) ++
  [(KEY_HELP, false); (KEY_VERSION, false)].

(** one key with its value, or an error of getopt (unknown option, ambiguous option, missing value,
    value not allowed) *)
Inductive Found := FoundOpt (key : Z) (value : option text) | FoundError.

(** getopt.c _getopt_internal_r: the characters behind the '-' of a word of short options.  The
    second component: an option with a value at the end of the word, which takes the next word *)
Fixpoint short_word (shorts : list (Z * bool)) (cs : text) : list Found * option Z :=
  match cs with
  | [] => ([], None)
  | c :: cs' =>
    match find (fun p => fst p =? code c) shorts with
    | None => ([FoundError], None)
    | Some (k, false) => let '(l, next) := short_word shorts cs' in (FoundOpt k None :: l, next)
    | Some (k, true) =>
      match cs' with
      | [] => ([], Some k)
      | _ => ([FoundOpt k (Some cs')], None)
      end
    end
  end.

(** getopt.c process_long_option: the name ends at the first '=' *)
Fixpoint split_equals (w : text) : text * option text :=
  match w with
  | [] => ([], None)
  | c :: w' =>
    if Ascii.eqb c "="%char then ([], Some w')
    else let '(n, v) := split_equals w' in (c :: n, v)
  end.

(** strncmp(s, p, strlen(p)) == 0 (C library), used by getopt.c *)
Fixpoint starts_with (p s : text) : bool :=
  match p, s with
  | [], _ => true
  | a :: p', b :: s' => Ascii.eqb a b && starts_with p' s'
  | _, [] => false
  end.

(** getopt.c process_long_option: an exact match, or else the only option whose name starts so *)
Definition find_long (longs : list LongOption) (name : text) : option LongOption :=
  match find (fun o => text_eqb (lo_name o) name) longs with
  | Some o => Some o
  | None =>
    match filter (fun o => starts_with name (lo_name o)) longs with
    | [o] => Some o
    | _ => None
    end
  end.

(** getopt.c: a word of options starts with '-' and is longer than that; "--" is no option *)
Definition is_option_word (w : text) : bool :=
  match w with "-"%char :: _ :: _ => true | _ => false end.

(** getopt.c _getopt_internal_r, all calls until -1: the options found, in order, and the words that
    are left over, in order.  An error ends the list. *)
Fixpoint getopt (shorts : list (Z * bool)) (longs : list LongOption) (words : list text)
    : list Found * list text :=
  match words with
  | [] => ([], [])
  | w :: ws =>
    if text_eqb w (T "--") then ([], ws)
    else if negb (is_option_word w) then
      let '(l, rest) := getopt shorts longs ws in (l, w :: rest)
    else if starts_with (T "--") w then
      let '(name, value) := split_equals (skipn 2 w) in
      match find_long longs name with
      | None => ([FoundError], [])
      | Some o =>
        match lo_has_arg o, value with
        | NoArgument, Some _ => ([FoundError], [])
        | NoArgument, None => let '(l, rest) := getopt shorts longs ws in (FoundOpt (lo_val o) None :: l, rest)
        | RequiredArgument, None =>
          match ws with
          | [] => ([FoundError], [])
          | v :: ws' => let '(l, rest) := getopt shorts longs ws' in (FoundOpt (lo_val o) (Some v) :: l, rest)
          end
        | _, v => let '(l, rest) := getopt shorts longs ws in (FoundOpt (lo_val o) v :: l, rest)
        end
      end
    else
      let '(found, next) := short_word shorts (skipn 1 w) in
      match next with
      | None => let '(l, rest) := getopt shorts longs ws in (found ++ l, rest)
      | Some k =>
        match ws with
        | [] => (found ++ [FoundError], [])
        | v :: ws' => let '(l, rest) := getopt shorts longs ws' in (found ++ FoundOpt k (Some v) :: l, rest)
        end
      end
  end.

(** argp-parse.c parser_parse_next and the parsers argp_default_parser and argp_version_parser: what
    becomes of the command line *)
Inductive Decision :=
| DRun (events : list Event)   (* the keys handed to parse_opt, then ARGP_KEY_END *)
| DInfo (key : Z)              (* --help, --usage or --version: printed on stdout, exit status 0 *)
| DBad.                        (* "Try `gaia --help' ...": exit status EX_USAGE *)

(** argp-parse.c: the options found are handled in order, the first decisive one ends the parse (src/main.c:148) *)
Fixpoint decide (l : list Found) (args : list text) : Decision :=
  match l with
  | [] => DRun (map EvArg args)
  | FoundError :: _ => DBad
  | FoundOpt k v :: l' =>
    if (k =? KEY_HELP) || (k =? OPT_USAGE) || (k =? KEY_VERSION) then DInfo k
    else if (k =? OPT_PROGNAME) || (k =? OPT_HANG) then decide l' args   (* the name in messages; a pause *)
    else
      match decide l' args, k =? 111, v with
      | DRun es, true, Some x => DRun (EvOutput x :: es)
      | DRun es, _, _ => DRun (EvOther k :: es)
      | d, _, _ => d
      end
  end.

(** src/main.c:143-291 main(argc, argv): [words] is argv without its first element, [info] the texts
    of --help, --usage and --version *)
Definition run_argv (info : Z -> text) (init_ok : bool) (env : Z -> AllocEnv) (fs : FileSystem)
    (table : list ArgpOption) (words : list text) : M ProcResult :=
  n <- count_options table ;;
  let t := firstn (Z.to_nat n) table in
  let '(found, args) := getopt (short_options t) (long_options t) words in
  match decide found args with
  | DBad => Ret (EX_USAGE, [], fs)
  | DInfo k => Ret (EXIT_SUCCESS, info k, fs)
  | DRun events => run init_ok env fs table events
  end.

(** ** With the environment variable POSIXLY_CORRECT *)
(** getopt.c _getopt_internal_r with the ordering REQUIRE_ORDER, which _getopt_initialize chooses if POSIXLY_CORRECT is
    set: as [getopt], but the first word that is no option ends the options; it and all words behind it are left over *)
Fixpoint getopt_ordered (shorts : list (Z * bool)) (longs : list LongOption) (words : list text)
    : list Found * list text :=
  match words with
  | [] => ([], [])
  | w :: ws =>
    if text_eqb w (T "--") then ([], ws)
    else if negb (is_option_word w) then ([], w :: ws)
    else if starts_with (T "--") w then
      let '(name, value) := split_equals (skipn 2 w) in
      match find_long longs name with
      | None => ([FoundError], [])
      | Some o =>
        match lo_has_arg o, value with
        | NoArgument, Some _ => ([FoundError], [])
        | NoArgument, None => let '(l, rest) := getopt_ordered shorts longs ws in (FoundOpt (lo_val o) None :: l, rest)
        | RequiredArgument, None =>
          match ws with
          | [] => ([FoundError], [])
          | v :: ws' => let '(l, rest) := getopt_ordered shorts longs ws' in (FoundOpt (lo_val o) (Some v) :: l, rest)
          end
        | _, v => let '(l, rest) := getopt_ordered shorts longs ws in (FoundOpt (lo_val o) v :: l, rest)
        end
      end
    else
      let '(found, next) := short_word shorts (skipn 1 w) in
      match next with
      | None => let '(l, rest) := getopt_ordered shorts longs ws in (found ++ l, rest)
      | Some k =>
        match ws with
        | [] => (found ++ [FoundError], [])
        | v :: ws' => let '(l, rest) := getopt_ordered shorts longs ws' in (found ++ FoundOpt k (Some v) :: l, rest)
        end
      end
  end.

(** src/main.c:143-291 main(argc, argv) with POSIXLY_CORRECT in the environment; see run_argv *)
Definition run_argv_posix (info : Z -> text) (init_ok : bool) (env : Z -> AllocEnv) (fs : FileSystem)
    (table : list ArgpOption) (words : list text) : M ProcResult :=
  n <- count_options table ;;
  let t := firstn (Z.to_nat n) table in
  let '(found, args) := getopt_ordered (short_options t) (long_options t) words in
  match decide found args with
  | DBad => Ret (EX_USAGE, [], fs)
  | DInfo k => Ret (EXIT_SUCCESS, info k, fs)
  | DRun events => run init_ok env fs table events
  end.

(** Spec_Argv.v -- specification side: the command line as a user writes it. *)
From Verif Require Import Base.

(** a word that is not an option: it does not start with '-', or is just that *)
Definition plain (w : text) : Prop := forall c w', w <> "-"%char :: c :: w'.

(** [n] is an abbreviation of the long option [full]: a non-empty beginning of it *)
Definition abbreviates (n : text) (full : string) : Prop := n <> [] /\ exists rest, T full = n ++ rest.

(** the words of one option; with the output file it names, if it does.  The last three are options
    that every program using argp has and that have no lasting effect. *)
Inductive One_option : list text -> option text -> Prop :=
| one_o : forall v, One_option [T "-o"; v] (Some v)
| one_o_joined : forall v, v <> [] -> One_option [T "-o" ++ v] (Some v)
| one_output : forall n v, abbreviates n "output" -> One_option [T "--" ++ n; v] (Some v)
| one_output_eq : forall n v, abbreviates n "output" -> One_option [T "--" ++ n ++ T "=" ++ v] (Some v)
| one_name : forall n v, abbreviates n "program-name" -> One_option [T "--" ++ n; v] None
| one_name_eq : forall n v, abbreviates n "program-name" -> One_option [T "--" ++ n ++ T "=" ++ v] None
| one_hang : forall n v, abbreviates n "HANG" -> v = [] \/ (exists v', v = T "=" ++ v') ->
    One_option [T "--" ++ n ++ v] None.

(** [Command words outputs arguments]: the words name these output files and these arguments, in
    this order.  Options and arguments may be mixed; behind "--" all words are arguments. *)
Inductive Command : list text -> list text -> list text -> Prop :=
| cmd_end : Command [] [] []
| cmd_arg : forall w ws o a, plain w -> Command ws o a -> Command (w :: ws) o (w :: a)
| cmd_option : forall os v ws o a, One_option os v -> Command ws o a ->
    Command (os ++ ws) (match v with Some x => x :: o | None => o end) a
| cmd_rest : forall ws, Command (T "--" :: ws) [] ws.

(** a word that asks for a text: the help, the usage, the version *)
Inductive Request := RHelp | RUsage | RVersion.
Inductive Request_word : text -> Request -> Prop :=
| rq_help : forall n, abbreviates n "help" -> Request_word (T "--" ++ n) RHelp
| rq_usage : forall n, abbreviates n "usage" -> Request_word (T "--" ++ n) RUsage
| rq_version : forall n, abbreviates n "version" -> Request_word (T "--" ++ n) RVersion
| rq_help_short : forall w, Request_word (T "-?" ++ w) RHelp
| rq_version_short : forall w, Request_word (T "-V" ++ w) RVersion.

(** [Asks words r]: the first such word asks for [r], and what stands in front of it is in order *)
Inductive Asks : list text -> Request -> Prop :=
| asks_here : forall w ws r, Request_word w r -> Asks (w :: ws) r
| asks_arg : forall w ws r, plain w -> Asks ws r -> Asks (w :: ws) r
| asks_option : forall os v ws r, One_option os v -> Asks ws r -> Asks (os ++ ws) r.

(** ** With the environment variable POSIXLY_CORRECT: options are only recognised in front of the first argument *)
Inductive Strict_command : list text -> list text -> list text -> Prop :=
| strict_end : Strict_command [] [] []
| strict_args : forall w ws, plain w -> Strict_command (w :: ws) [] (w :: ws)
| strict_option : forall os v ws o a, One_option os v -> Strict_command ws o a ->
    Strict_command (os ++ ws) (match v with Some x => x :: o | None => o end) a
| strict_rest : forall ws, Strict_command (T "--" :: ws) [] ws.

Inductive Strict_asks : list text -> Request -> Prop :=
| strict_here : forall w ws r, Request_word w r -> Strict_asks (w :: ws) r
| strict_behind : forall os v ws r, One_option os v -> Strict_asks ws r -> Strict_asks (os ++ ws) r.

(** the portable way of writing: options, then "--" and arguments or only words that are no options *)
Inductive Options_first : list text -> Prop :=
| first_plain : forall ws, Forall plain ws -> Options_first ws
| first_rest : forall ws, Options_first (T "--" :: ws)
| first_option : forall os v ws, One_option os v -> Options_first ws -> Options_first (os ++ ws).

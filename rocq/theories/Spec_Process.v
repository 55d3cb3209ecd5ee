(** Spec_Process.v -- specification side: what an invocation of the program does, from the words of its command line and
    the file system with its links. *)
From Verif Require Import Base Model_Main Model_Disk Spec_Isa Spec_Text Spec_Asm Spec_Diag Spec_Grammar Spec_Report Spec_Argv Spec_Total.

(** the name leads to the file [f] *)
Definition names (d : Disk) (name : text) (f : nat) : Prop := exists p, dk_leads d name = Some p /\ dk_entry d p = Some f.

(** no path has a file that is yet to be created *)
Definition sound (d : Disk) : Prop := forall p f, dk_entry d p = Some f -> (f < dk_next d)%nat.

Definition readable (d : Disk) (name : text) (f : nat) : Prop := names d name f /\ dk_reads d f = true.

(** the file an output of this name goes to: the file it leads to, or a new file if the name leads to a path without one *)
Inductive goes_to (d : Disk) (name : text) (f : nat) : Prop :=
| goes_old : names d name f -> dk_writes d f = true -> goes_to d name f
| goes_new p : dk_leads d name = Some p -> dk_entry d p = None -> dk_creates d p = true -> (forall q, dk_entry d q <> Some f) -> goes_to d name f.

(** [d'] is [d] after the output [c] has gone to the file [f] under that name: no other file changes, no link changes, and
    a name leads to a file it did not lead to before only if it leads to the path of a new output *)
Record written (d : Disk) (name : text) (f : nat) (c : list Z) (d' : Disk) : Prop := {
  w_data : dk_data d' f = c;
  w_others : forall g, g <> f -> dk_data d' g = dk_data d g;
  w_name : names d' name f;
  w_links : forall n, dk_leads d' n = dk_leads d n;
  w_names : forall n g, names d' n g <-> names d n g \/ (g = f /\ dk_leads d n = dk_leads d name);
  w_sound : sound d' }.

Definition no_source_report (src : text) : text := T "ERROR: " ++ src ++ T " could not be opened" ++ [ch_nl; ch_nl].
Definition no_output_report : text := T "ERROR: assembled binary file could not be created" ++ [ch_nl; ch_nl].

Definition request_text (info : Z -> text) (r : Request) : text :=
  info (match r with RHelp => 63 | RUsage => -3 | RVersion => 86 end).

(** ** What becomes of an invocation *)
Inductive Invocation (info : Z -> text) (d : Disk) (words : list text) (res : M (Z * text * Disk)) : Prop :=
(* --help, --usage or --version *)
| inv_text r : Asks words r -> res = Ret (0, request_text info r, d) -> Invocation info d words res
(* none or several source files *)
| inv_usage outs args : Command words outs args -> List.length args <> 1%nat -> res = Ret (64, [], d) -> Invocation info d words res
(* words that are not a command line *)
| inv_refused : (forall outs args, ~ Command words outs args) -> (forall r, ~ Asks words r) -> res = Ret (64, [], d) -> Invocation info d words res
(* the source file cannot be read *)
| inv_no_source outs src : Command words outs [src] -> (forall f, ~ readable d src f) ->
    res = Ret (1, no_source_report src, d) -> Invocation info d words res
(* the output file cannot be written *)
| inv_no_output outs src f : Command words outs [src] -> readable d src f -> (forall g, ~ goes_to d (last outs (T "a.out")) g) ->
    res = Ret (1, no_output_report, d) -> Invocation info d words res
(* the source is assembled: as empty, if the output goes to the same file *)
| inv_assembled outs src f g source l st h out : Command words outs [src] -> readable d src f -> goes_to d (last outs (T "a.out")) g ->
    source = (if Nat.eqb f g then [] else map chr (dk_data d f)) ->
    pieces source l -> reads_on 1 (mkD 0 [] []) l st h -> result src l st h out ->
    match out with
    | Ret o => exists d', res = Ret (exit_code o, stdout o, d') /\ written d (last outs (T "a.out")) g (binary o) d'
    | Undef u => res = Undef u
    | Diverge => False
    end -> Invocation info d words res.

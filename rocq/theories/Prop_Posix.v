(** Prop_Posix.v -- the command line with POSIXLY_CORRECT in the environment: C87. *)
From Verif Require Import Base Proof_Base Model_Opcode Model_Error Model_Main Model_Args Model_Argv
  Spec_Argv Prop_Args Prop_Argv.

(** ** One step of getopt *)
Lemma posix_long : forall c n ws, getopt_ordered shorts longs (("-"%char :: "-"%char :: c :: n) :: ws) =
  let '(name, value) := split_equals (c :: n) in
  match find_long longs name with
  | None => ([FoundError], [])
  | Some o =>
    match lo_has_arg o, value with
    | NoArgument, Some _ => ([FoundError], [])
    | NoArgument, None => let '(l, rest) := getopt_ordered shorts longs ws in (FoundOpt (lo_val o) None :: l, rest)
    | RequiredArgument, None =>
      match ws with
      | [] => ([FoundError], [])
      | v :: ws' => let '(l, rest) := getopt_ordered shorts longs ws' in (FoundOpt (lo_val o) (Some v) :: l, rest)
      end
    | _, v => let '(l, rest) := getopt_ordered shorts longs ws in (FoundOpt (lo_val o) v :: l, rest)
    end
  end.
Proof. reflexivity. Qed.

Lemma posix_step_option : forall os v ws l a, One_option os v -> getopt_ordered shorts longs ws = (l, a) ->
  exists f, key_of v f /\ getopt_ordered shorts longs (os ++ ws) = (f :: l, a).
Proof.
  intros os v ws l a O G. destruct O as [v|v V|n v A|n v A|n v A|n v A|n v A V].
  - eexists. split; [reflexivity|]. cbn [getopt_ordered app T list_ascii_of_string].
    change (text_eqb ["-"%char; "o"%char] ["-"%char; "-"%char]) with false. cbv iota. cbn [is_option_word negb].
    change (starts_with ["-"%char; "-"%char] ["-"%char; "o"%char]) with false. cbv iota. cbn [skipn].
    change (short_word shorts ["o"%char]) with (@nil Found, Some 111). cbv iota beta. rewrite G. reflexivity.
  - eexists. split; [reflexivity|]. destruct v as [|c v]; [elim V; reflexivity|]. cbn [getopt_ordered app T list_ascii_of_string].
    change (text_eqb ("-"%char :: "o"%char :: c :: v) ["-"%char; "-"%char]) with false. cbv iota. cbn [is_option_word negb].
    change (starts_with ["-"%char; "-"%char] ("-"%char :: "o"%char :: c :: v)) with false. cbv iota. cbn [skipn].
    change (short_word shorts ("o"%char :: c :: v)) with ([FoundOpt 111 (Some (c :: v))], @None Z). cbv iota beta. rewrite G. reflexivity.
  - eexists. split; [reflexivity|]. destruct n as [|c n]; [destruct A as [A _]; elim A; reflexivity|].
    cbn [app T list_ascii_of_string]. rewrite posix_long.
    rewrite (proj1 (split_equals_of (c :: n) [] ltac:(no_eq A))), (proj1 (find_long_is _) A). cbn [lo_has_arg lo_val long_output]. rewrite G. reflexivity.
  - eexists. split; [reflexivity|]. destruct n as [|c n]; [destruct A as [A _]; elim A; reflexivity|].
    cbn [app T list_ascii_of_string]. rewrite posix_long, app_comm_cons.
    rewrite (proj2 (split_equals_of (c :: n) v ltac:(no_eq A))), (proj1 (find_long_is _) A). cbn [lo_has_arg lo_val long_output]. rewrite G. reflexivity.
  - exists (FoundOpt OPT_PROGNAME (Some v)). split; [do 2 eexists; split; [reflexivity|left; reflexivity]|]. destruct n as [|c n]; [destruct A as [A _]; elim A; reflexivity|].
    cbn [app T list_ascii_of_string]. rewrite posix_long.
    rewrite (proj1 (split_equals_of (c :: n) [] ltac:(no_eq A))), (proj1 (proj2 (find_long_is _)) A). cbn [lo_has_arg lo_val long_name]. rewrite G. reflexivity.
  - exists (FoundOpt OPT_PROGNAME (Some v)). split; [do 2 eexists; split; [reflexivity|left; reflexivity]|]. destruct n as [|c n]; [destruct A as [A _]; elim A; reflexivity|].
    cbn [app T list_ascii_of_string]. rewrite posix_long, app_comm_cons.
    rewrite (proj2 (split_equals_of (c :: n) v ltac:(no_eq A))), (proj1 (proj2 (find_long_is _)) A). cbn [lo_has_arg lo_val long_name]. rewrite G. reflexivity.
  - destruct n as [|c n]; [destruct A as [A _]; elim A; reflexivity|].
    assert (exists x, split_equals ((c :: n) ++ v) = (c :: n, x)) as (x & E).
    { destruct V as [->|(v' & ->)]; [rewrite app_nil_r; exists None; apply (split_equals_of _ []); no_eq A|].
      exists (Some v'). apply (split_equals_of _ v'). no_eq A. }
    exists (FoundOpt OPT_HANG x). split; [do 2 eexists; split; [reflexivity|right; reflexivity]|].
    cbn [app T list_ascii_of_string]. rewrite posix_long. cbn [app] in E. rewrite E, (proj1 (proj2 (proj2 (find_long_is _))) A). cbn [lo_has_arg lo_val long_hang]. rewrite G.
    destruct x; reflexivity.
Qed.

Lemma posix_short_request : forall c r w ws, (c = "?"%char /\ r = RHelp) \/ (c = "V"%char /\ r = RVersion) ->
  exists l a, getopt_ordered shorts longs (("-"%char :: c :: w) :: ws) = (FoundOpt (request_key r) None :: l, a).
Proof.
  intros c r w ws H. cbn [getopt_ordered].
  assert (text_eqb ("-"%char :: c :: w) (T "--") = false) as -> by (destruct H as [[-> _]|[-> _]]; reflexivity).
  cbn [is_option_word negb T list_ascii_of_string].
  assert (starts_with ["-"%char; "-"%char] ("-"%char :: c :: w) = false) as -> by (destruct H as [[-> _]|[-> _]]; reflexivity).
  cbn [skipn].
  assert (exists f nx, short_word shorts (c :: w) = (FoundOpt (request_key r) None :: f, nx)) as (f & nx & ->).
  { destruct H as [[-> ->]|[-> ->]];
      (match goal with |- context [short_word shorts (?c :: w)] =>
         change (short_word shorts (c :: w)) with
           (let '(l, next) := short_word shorts w in (FoundOpt (code c) None :: l, next)) end;
       destruct (short_word shorts w) as [f nx]; exists f, nx; reflexivity). }
  destruct nx; [destruct ws|]; repeat (match goal with |- context [getopt_ordered ?a ?b ?c] => destruct (getopt_ordered a b c) end); cbn [app]; eauto.
Qed.

Lemma posix_step_request : forall w ws r, Request_word w r ->
  exists l a, getopt_ordered shorts longs (w :: ws) = (FoundOpt (request_key r) None :: l, a).
Proof.
  assert (LONG : forall n ws r, abbreviates n (request_name r) ->
    exists l a, getopt_ordered shorts longs ((T "--" ++ n) :: ws) = (FoundOpt (request_key r) None :: l, a)).
  { intros n ws r A. destruct n as [|c n]; [destruct A as [A _]; elim A; reflexivity|].
    cbn [app T list_ascii_of_string]. rewrite posix_long.
    assert (NE : ~ In "="%char (c :: n)) by (apply (abbreviates_no_eq _ _ A); destruct r; vm_compute; intuition discriminate).
    rewrite (proj1 (split_equals_of (c :: n) [] NE)), (proj2 (proj2 (proj2 (find_long_is _))) r A).
    cbn [lo_has_arg lo_val long_request]. destruct (getopt_ordered shorts longs ws) as [l a]. eauto. }
  intros w ws r [n A|n A|n A|w'|w'].
  - apply (LONG n ws RHelp A).
  - apply (LONG n ws RUsage A).
  - apply (LONG n ws RVersion A).
  - apply (posix_short_request "?"%char RHelp w' ws). auto.
  - apply (posix_short_request "V"%char RVersion w' ws). auto.
Qed.

(** every command line starts in one of these ways *)
Lemma posix_first_words : forall words,
  words = [] \/ (exists ws, words = T "--" :: ws) \/ (exists w ws, words = w :: ws /\ plain w) \/
  (exists os v ws, words = os ++ ws /\ One_option os v /\ os <> []) \/ (exists w ws r, words = w :: ws /\ Request_word w r) \/
  exists a, getopt_ordered shorts longs words = ([FoundError], a) \/ exists l, getopt_ordered shorts longs words = (FoundError :: l, a).
Proof.
  intros [|w ws]; [left; reflexivity|right].
  destruct (text_eqb w (T "--")) eqn:E1; [apply text_eqb_eq in E1; left; exists ws; congruence|right].
  destruct (is_option_word w) eqn:E2; [right|left; exists w, ws; split; [reflexivity|apply plain_word; exact E2]].
  destruct w as [|c0 [|c w]]; try discriminate; [destruct c0 as [[] [] [] [] [] [] [] []]; discriminate|].
  assert (c0 = "-"%char) as -> by (destruct c0 as [[] [] [] [] [] [] [] []]; cbn in E2; (reflexivity || discriminate)).
  destruct (Ascii.eqb_spec "-"%char c) as [<-|NC].
  - destruct w as [|c w]; [discriminate|]. pose proof (posix_long c w ws) as G.
    destruct (split_equals (c :: w)) as [name value] eqn:ES. pose proof (split_equals_join _ _ _ ES) as W. rewrite W.
    change ("-"%char :: "-"%char :: name ++ match value with Some x => "="%char :: x | None => [] end)
      with (T "--" ++ name ++ match value with Some x => T "=" ++ x | None => [] end).
    destruct (find_long longs name) as [lo|] eqn:FL; [|right; right; rewrite W in G; eexists; left; exact G].
    destruct (find_long_cases _ _ FL) as [[A ->]|[[A ->]|[[A ->]|(r & A & ->)]]]; cbn [lo_has_arg lo_val long_output long_name long_hang long_request] in G.
    + destruct value as [v|]; [left; exists [T "--" ++ name ++ T "=" ++ v], (Some v), ws; split; [reflexivity|]; split; [apply one_output_eq; exact A|discriminate]|].
      rewrite app_nil_r. destruct ws as [|v ws]; [right; right; rewrite W, app_nil_r in G; eexists; left; exact G|].
      left. exists [T "--" ++ name; v], (Some v), ws. split; [reflexivity|]. split; [apply one_output; exact A|discriminate].
    + destruct value as [v|]; [left; exists [T "--" ++ name ++ T "=" ++ v], None, ws; split; [reflexivity|]; split; [apply one_name_eq; exact A|discriminate]|].
      rewrite app_nil_r. destruct ws as [|v ws]; [right; right; rewrite W, app_nil_r in G; eexists; left; exact G|].
      left. exists [T "--" ++ name; v], None, ws. split; [reflexivity|]. split; [apply one_name; exact A|discriminate].
    + left. eexists [_], None, ws. split; [reflexivity|]. split; [|discriminate]. apply one_hang; [exact A|].
      destruct value as [v|]; [right; exists v; reflexivity|left; reflexivity].
    + destruct value as [v|]; [right; right; rewrite W in G; eexists; left; exact G|]. rewrite app_nil_r.
      right; left. exists (T "--" ++ name), ws, r. split; [reflexivity|]. destruct r; constructor; exact A.
  - destruct (Z.eqb_spec 111 (code c)) as [K|N1].
    + assert (c = "o"%char) as -> by (apply code_inj; rewrite <- K; reflexivity).
      destruct w as [|d w].
      * destruct ws as [|v ws]; [right; right; eexists; left; reflexivity|].
        left. exists [T "-o"; v], (Some v), ws. split; [reflexivity|]. split; [constructor|discriminate].
      * left. exists [T "-o" ++ d :: w], (Some (d :: w)), ws. split; [reflexivity|]. split; [constructor; discriminate|discriminate].
    + destruct (Z.eqb_spec 63 (code c)) as [K|N2].
      { assert (c = "?"%char) as -> by (apply code_inj; rewrite <- K; reflexivity).
        right; left. exists (T "-?" ++ w), ws, RHelp. split; [reflexivity|constructor]. }
      destruct (Z.eqb_spec 86 (code c)) as [K|N3].
      { assert (c = "V"%char) as -> by (apply code_inj; rewrite <- K; reflexivity).
        right; left. exists (T "-V" ++ w), ws, RVersion. split; [reflexivity|constructor]. }
      right; right. cbn [getopt_ordered]. rewrite E1, E2. cbn [negb starts_with T list_ascii_of_string]. rewrite Ascii.eqb_refl. cbn [andb].
      destruct (Ascii.eqb_spec "-"%char c) as [K|_]; [elim NC; exact K|]. cbn [andb skipn short_word].
      assert (find (fun p : Z * bool => fst p =? code c) shorts = None) as ->.
      { unfold shorts. cbn [find fst].
        destruct (Z.eqb_spec 111 (code c)); [lia|]. destruct (Z.eqb_spec 63 (code c)); [lia|]. destruct (Z.eqb_spec 86 (code c)); [lia|]. reflexivity. }
      destruct (getopt_ordered shorts longs ws) as [l a]. exists a. right. exists l. reflexivity.
Qed.


(** the command line as the library takes it *)
Definition posix_verdict (words : list text) : Decision :=
  decide (fst (getopt_ordered shorts longs words)) (snd (getopt_ordered shorts longs words)).

Lemma posix_plain : forall w ws, plain w -> getopt_ordered shorts longs (w :: ws) = ([], w :: ws).
Proof.
  intros w ws P. cbn [getopt_ordered].
  assert (text_eqb w (T "--") = false) as -> by (apply text_eqb_neq; intros ->; apply (P "-"%char []); reflexivity).
  rewrite (proj1 (plain_word w) P). reflexivity.
Qed.

Lemma posix_command : forall words o a, Strict_command words o a -> posix_verdict words = DRun (map EvOutput o ++ map EvArg a).
Proof.
  intros words o a C. enough (exists l, getopt_ordered shorts longs words = (l, a) /\ decide l a = DRun (map EvOutput o ++ map EvArg a)) as (l & G & D).
  { unfold posix_verdict. rewrite G. exact D. }
  induction C as [|w ws P|os v ws o a O C IH|ws]; try (destruct IH as (l & G & D)).
  - exists []. split; reflexivity.
  - exists []. split; [apply posix_plain; exact P|reflexivity].
  - destruct (posix_step_option _ _ _ _ _ O G) as (f & K & G'). exists (f :: l). split; [exact G'|].
    rewrite (decide_key v f l a K), D. destruct v; reflexivity.
  - exists []. split; reflexivity.
Qed.

Lemma posix_asks : forall words r, Strict_asks words r -> posix_verdict words = DInfo (request_key r).
Proof.
  intros words r A. unfold posix_verdict. induction A as [w ws r R|os v ws r O A IH].
  - destruct (posix_step_request _ ws _ R) as (l & a & ->). cbn [fst snd]. destruct r; reflexivity.
  - destruct (getopt_ordered shorts longs ws) as [l a] eqn:G. destruct (posix_step_option _ _ _ _ _ O G) as (f & K & ->). cbn [fst snd] in *.
    rewrite (decide_key v f l a K), IH. reflexivity.
Qed.

(** and nothing else *)
Lemma posix_cases : forall n words, (List.length words <= n)%nat ->
  (exists o a, Strict_command words o a) \/ (exists r, Strict_asks words r) \/ posix_verdict words = DBad.
Proof.
  induction n as [|n IH]; intros words L.
  { destruct words; [|cbn in L; lia]. left. exists [], []. constructor. }
  destruct (posix_first_words words) as [->|[(ws & ->)|[(w & ws & -> & P)|[(os & v & ws & -> & O & NE)|[(w & ws & r & -> & R)|(a & [G|(l & G)])]]]]].
  - left. exists [], []. constructor.
  - left. exists [], ws. constructor.
  - left. exists [], (w :: ws). constructor. exact P.
  - rewrite app_length in L. destruct (IH ws) as [(o & a & C)|[(r & A)|B]].
    { destruct os; [elim NE; reflexivity|cbn in L; lia]. }
    + left. eexists _, a. apply strict_option; eassumption.
    + right; left. exists r. eapply strict_behind; eassumption.
    + right; right. unfold posix_verdict in *. destruct (getopt_ordered shorts longs ws) as [l a] eqn:G.
      destruct (posix_step_option _ _ _ _ _ O G) as (f & K & ->). cbn [fst snd] in *. rewrite (decide_key v f l a K), B. reflexivity.
  - right; left. exists r. apply strict_here. exact R.
  - right; right. unfold posix_verdict. rewrite G. reflexivity.
  - right; right. unfold posix_verdict. rewrite G. reflexivity.
Qed.

Lemma run_posix_is : forall info init_ok env fs table words, repaired table ->
  run_argv_posix info init_ok env fs table words =
  match posix_verdict words with
  | DBad => Ret (EX_USAGE, [], fs)
  | DInfo k => Ret (EXIT_SUCCESS, info k, fs)
  | DRun events => run init_ok env fs table events
  end.
Proof.
  intros info init_ok env fs table words R. destruct (repaired_count _ R) as (A & B & _). unfold run_argv_posix. rewrite A. cbn [bind].
  change (Z.to_nat 1) with 1%nat. rewrite B. change (short_options options) with shorts. change (long_options options) with longs.
  unfold posix_verdict. destruct (getopt_ordered shorts longs words) as [l a]. reflexivity.
Qed.

(** ** C87: with POSIXLY_CORRECT *)
Theorem C87_run : forall info init_ok env fs table words outs src, repaired table -> Strict_command words outs [src] ->
  run_argv_posix info init_ok env fs table words = main init_ok env fs src (last outs (T "a.out")).
Proof.
  intros info init_ok env fs table words outs src R C. rewrite run_posix_is, (posix_command _ _ _ C) by exact R.
  destruct (events_of_command outs [src]) as (A & O & N). rewrite <- O at 2.
  apply C47_source; [exact N|apply repaired_count; exact R|exact A].
Qed.

Theorem C87_usage : forall info init_ok env fs table words outs args, repaired table -> Strict_command words outs args ->
  List.length args <> 1%nat -> run_argv_posix info init_ok env fs table words = Ret (64, [], fs).
Proof.
  intros info init_ok env fs table words outs args R C L. rewrite run_posix_is, (posix_command _ _ _ C) by exact R.
  destruct (events_of_command outs args) as (A & O & N). apply C47_usage; [exact N|apply repaired_count; exact R|rewrite A; exact L].
Qed.

Theorem C87_request : forall info init_ok env fs table words r, repaired table -> Strict_asks words r ->
  run_argv_posix info init_ok env fs table words = Ret (0, info (request_key r), fs).
Proof. intros info init_ok env fs table words r R A. rewrite run_posix_is, (posix_asks _ _ A) by exact R. reflexivity. Qed.

Theorem C87_otherwise : forall info init_ok env fs table words, repaired table ->
  (forall outs args, ~ Strict_command words outs args) -> (forall r, ~ Strict_asks words r) ->
  run_argv_posix info init_ok env fs table words = Ret (64, [], fs).
Proof.
  intros info init_ok env fs table words R N1 N2. rewrite run_posix_is by exact R.
  destruct (posix_cases _ words (le_n _)) as [(o & a & C)|[(r & A)|B]].
  - elim (N1 _ _ C).
  - elim (N2 _ A).
  - rewrite B. reflexivity.
Qed.

(** ** Options in front: the variable makes no difference *)
Lemma plain_command : forall ws, Forall plain ws -> Command ws [] ws /\ Strict_command ws [] ws.
Proof.
  intros ws F. split; [induction F; constructor; assumption|]. destruct F; constructor. assumption.
Qed.
Lemma first_commands : forall words, Options_first words -> exists o a, Command words o a /\ Strict_command words o a.
Proof.
  intros words F. induction F as [ws F|ws|os v ws O F (o & a & C & S)].
  - destruct (plain_command ws F). eauto.
  - exists [], ws. split; constructor.
  - eexists _, a. split; [apply cmd_option|apply strict_option]; eassumption.
Qed.
Theorem C87_portable : forall info init_ok env fs table words, repaired table -> Options_first words ->
  run_argv_posix info init_ok env fs table words = run_argv info init_ok env fs table words.
Proof.
  intros info init_ok env fs table words R F. destruct (first_commands _ F) as (o & a & C & S).
  rewrite run_posix_is, run_argv_is by exact R. rewrite (posix_command _ _ _ S), (verdict_command _ _ _ C). reflexivity.
Qed.
(** a request in front of the arguments as well *)
Theorem C87_portable_request : forall info init_ok env fs table words r, repaired table -> Strict_asks words r ->
  run_argv_posix info init_ok env fs table words = run_argv info init_ok env fs table words.
Proof.
  intros info init_ok env fs table words r R S.
  assert (A : Asks words r) by (clear R; induction S; [apply asks_here; assumption|eapply asks_option; eassumption]).
  rewrite run_posix_is, run_argv_is by exact R. rewrite (posix_asks _ _ S), (verdict_asks _ _ A). reflexivity.
Qed.

(** the usual [gaia a.asm -o b] needs the variable to be unset *)
Theorem C87_order_matters : forall info init_ok env fs table src out, repaired table -> plain src ->
  run_argv info init_ok env fs table [src; T "-o"; out] = main init_ok env fs src out /\
  run_argv_posix info init_ok env fs table [src; T "-o"; out] = Ret (64, [], fs).
Proof.
  intros info init_ok env fs table src out R P. split.
  - apply (C71_run info init_ok env fs table _ [out] src R). apply cmd_arg; [exact P|].
    apply (cmd_option [T "-o"; out] (Some out) [] [] []); constructor.
  - apply (C87_usage info init_ok env fs table _ [] [src; T "-o"; out] R); [constructor; exact P|discriminate].
Qed.

Example C87_example :
  Strict_command (map T ["-o"; "b"; "p.asm"])%string [T "b"] [T "p.asm"] /\ Options_first (map T ["-o"; "b"; "p.asm"])%string /\
  Strict_command (map T ["p.asm"; "--help"])%string [] (map T ["p.asm"; "--help"])%string /\
  Strict_asks (map T ["-ob"; "--help"; "p.asm"])%string RHelp /\
  ((forall o a, ~ Strict_command (map T ["-x"; "p.asm"])%string o a) /\ (forall r, ~ Strict_asks (map T ["-x"; "p.asm"])%string r)).
Proof.
  split; [apply (strict_option [T "-o"; T "b"] (Some (T "b")) [T "p.asm"] []); constructor; intros c w K; discriminate|].
  split; [apply (first_option [T "-o"; T "b"] (Some (T "b"))); [constructor|]; apply first_plain; repeat constructor; intros c w K; discriminate|].
  split; [constructor; intros c w K; discriminate|].
  split; [apply (strict_behind [T "-ob"] (Some (T "b"))); [apply (one_o_joined (T "b")); discriminate|]; apply strict_here; apply (rq_help (T "help")); split; [discriminate|exists []; reflexivity]|].
  split; [intros o a C; apply posix_command in C; discriminate|intros r A; apply posix_asks in A; destruct r; discriminate].
Qed.

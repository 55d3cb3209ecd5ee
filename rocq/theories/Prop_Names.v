(** Prop_Names.v -- C63: the names of the files. *)
From Verif Require Import Base Spec_Prog Proof_Base Model_Opcode Model_Error Model_Lexer Model_SymbolTable
  Model_Parser Model_ForwardRef Model_Generator Model_Main Spec_Report Proof_Error Proof_Core Proof_Sim2 Proof_Run Proof_Source Proof_Prog Prop_Again.

(** [t'] is [t] with the name [name'] for [name] at its beginning, or both are the same *)
Definition names_differ (name name' t t' : text) : Prop :=
  t' = t \/ exists rest, t = name ++ rest /\ t' = name' ++ rest.

(** the report of one error, with two names of the file *)
Lemma report_names : forall f f' n m line pos out out', Report f n m line pos out -> Report f' n m line pos out' -> names_differ f f' out out'.
Proof.
  intros f f' n m line pos out out' (s & H & ->) (s' & H' & ->). rewrite (shown_as_fun _ _ _ H' H). right. eexists. split; reflexivity.
Qed.

(** ** C63.  The name of the source file has no influence but that it stands at the beginning of an error report *)
Theorem C63_source_name : forall name name' src o, small src -> gaia name src = Ret o ->
  exists o', gaia name' src = Ret o' /\ exit_code o' = exit_code o /\ binary o' = binary o /\
    names_differ name name' (stdout o) (stdout o') /\ (exit_code o = 0 -> stdout o' = stdout o).
Proof.
  intros name name' src o HB H. destruct (Run_total (lines_of src) core_init) as [r R].
  unfold small in HB. assert (L : ~ FEW <= zlen src) by (unfold FEW, zlen; lia).
  destruct (gaia_run name src r R) as [S|[_ K]]; [|contradiction]. destruct (gaia_run name' src r R) as [S'|[_ K]]; [|contradiction].
  rewrite H in S. destruct r as [c fl|m n pos fl|fl|]; cbn [settled] in S, S'.
  - injection S as ->. eexists. split; [exact S'|]. cbn. unfold names_differ. auto.
  - destruct S as (out & line & E & _ & Hn & Rp). destruct S' as (out' & line' & E' & _ & Hn' & Rp'). injection E as ->.
    rewrite Hn in Hn'. injection Hn' as <-. eexists. split; [exact E'|]. cbn. do 2 (split; [reflexivity|]). split; [|discriminate].
    eapply report_names; eassumption.
  - injection S as ->. eexists. split; [exact S'|]. cbn. unfold names_differ. auto.
  - discriminate.
Qed.

(** two calls on the same text in different files, with different output files *)
Theorem C63_file_names : forall fs src src' out out' source code text fs1, src <> out -> src' <> out' ->
  fs_file fs src = Some source -> fs_file fs src' = Some source -> small (map chr source) -> fs_creatable fs out = true -> fs_creatable fs out' = true ->
  main true no_failure fs src out = Ret (code, text, fs1) ->
  exists text' fs2, main true no_failure fs src' out' = Ret (code, text', fs2) /\ fs_file fs2 out' = fs_file fs1 out /\
    names_differ src src' text text' /\ (code = 0 -> text' = text).
Proof.
  intros fs src src' out out' source code text fs1 N N' F F' HB C C' H. unfold main in *. cbn [negb] in *.
  rewrite F, C in H. rewrite F', C'. cbn [negb] in *. cbn zeta in *. cbn [fs_write fs_file] in *.
  rewrite (text_eqb_other _ _ N), F in H. rewrite (text_eqb_other _ _ N'), F'. fold (gaia src (map chr source)) in H. fold (gaia src' (map chr source)).
  destruct (gaia src (map chr source)) as [o| |] eqn:G; cbn [bind] in H; try discriminate. injection H as <- <- <-.
  destruct (C63_source_name src src' _ _ HB G) as (o' & G' & Ec & Eb & D & Es). rewrite G'. cbn [bind]. rewrite Ec, Eb.
  do 2 eexists. split; [reflexivity|]. split; [|auto]. cbn. rewrite !text_eqb_same. reflexivity.
Qed.

Example C63_example : exists o o' rest, small (T "LDX ??") /\ gaia (T "a.asm") (T "LDX ??") = Ret o /\ gaia (T "b/c.asm") (T "LDX ??") = Ret o' /\
  stdout o = T "a.asm" ++ rest /\ stdout o' = T "b/c.asm" ++ rest /\ rest <> [].
Proof.
  do 3 eexists. split; [vm_compute; reflexivity|]. do 2 (split; [vm_compute; reflexivity|]). cbn [stdout].
  split; [vm_compute; reflexivity|]. split; [vm_compute; reflexivity|]. discriminate.
Qed.

(** Prop_Process.v -- C75: the result of every invocation, on a file system with links. *)
From Verif Require Import Base Spec_Prog Proof_Base Model_Opcode Model_Error Model_Main Model_Args Model_Argv Model_Disk Spec_Isa Spec_Text Spec_Asm Spec_Diag
  Spec_Grammar Spec_Report Spec_Argv Spec_Total Spec_Process Proof_Lex2 Proof_Core Proof_Run Proof_Prog Proof_Check Prop_Table Prop_Args Prop_Argv Prop_Total.

Lemma file_at_names : forall d n f, file_at d n = Some f <-> names d n f.
Proof.
  intros d n f. unfold file_at, names. split.
  - destruct (dk_leads d n) as [p|]; [|discriminate]. eauto.
  - intros (p & -> & H). exact H.
Qed.

Lemma names_fun : forall d n f g, names d n f -> names d n g -> f = g.
Proof. intros d n f g H K. apply file_at_names in H, K. congruence. Qed.

Lemma open_read_ok : forall d n, match open_read d n with Some f => readable d n f | None => forall f, ~ readable d n f end.
Proof.
  intros d n. unfold open_read. destruct (file_at d n) as [f|] eqn:E.
  - apply file_at_names in E. destruct (dk_reads d f) eqn:R; [split; assumption|]. intros g [K Rg]. rewrite (names_fun _ _ _ _ K E) in Rg. congruence.
  - intros f [K _]. apply file_at_names in K. congruence.
Qed.

Lemma text_eqb_refl : forall p, text_eqb p p = true.
Proof. intro p. apply text_eqb_eq. reflexivity. Qed.

Lemma open_write_ok : forall d n, sound d ->
  match open_write d n with
  | Some (g, d1) => goes_to d n g /\ dk_data d1 g = [] /\ (forall f, f <> g -> dk_data d1 f = dk_data d f) /\
      forall c, written d n g c (set_data d1 g c)
  | None => forall g, ~ goes_to d n g
  end.
Proof.
  intros d n S. unfold open_write. destruct (dk_leads d n) as [p|] eqn:Ep.
  2:{ intros g [(q & K & _)|q K]; congruence. }
  destruct (dk_entry d p) as [f|] eqn:Ef.
  - assert (N : names d n f) by (exists p; auto). destruct (dk_writes d f) eqn:Ew.
    + split; [constructor 1; assumption|]. cbn [set_data dk_data]. rewrite Nat.eqb_refl. split; [reflexivity|].
      split; [intros g K; destruct (Nat.eqb_spec g f); [contradiction|reflexivity]|]. intro c.
      constructor; cbn [set_data dk_data dk_leads dk_entry dk_next].
      * rewrite Nat.eqb_refl. reflexivity.
      * intros g K. destruct (Nat.eqb_spec g f); [contradiction|reflexivity].
      * exact N.
      * reflexivity.
      * intros m g. change (names d m g <-> names d m g \/ (g = f /\ dk_leads d m = dk_leads d n)). split; [auto|].
        intros [H|[-> H]]; [exact H|]. exists p. rewrite H. auto.
      * exact S.
    + intros g [K W|q K E]; [rewrite (names_fun _ _ _ _ K N) in W; congruence|]. rewrite Ep in K. injection K as <-. congruence.
  - destruct (dk_creates d p) eqn:Ec.
    + assert (Fr : forall q, dk_entry d q <> Some (dk_next d)) by (intros q K; apply S in K; lia).
      split; [econstructor 2; eauto|]. cbn [set_data dk_data]. rewrite Nat.eqb_refl. split; [reflexivity|].
      split; [intros g K; destruct (Nat.eqb_spec g (dk_next d)); [contradiction|reflexivity]|]. intro c.
      constructor; cbn [set_data dk_data dk_leads dk_entry dk_next].
      * rewrite Nat.eqb_refl. reflexivity.
      * intros g K. destruct (Nat.eqb_spec g (dk_next d)); [contradiction|reflexivity].
      * exists p. cbn [set_data dk_leads dk_entry]. rewrite text_eqb_refl. auto.
      * reflexivity.
      * intros m g. unfold names at 1. cbn [set_data dk_leads dk_entry]. split.
        -- intros (q & Hq & He). destruct (text_eqb q p) eqn:E.
           ++ apply text_eqb_eq in E. subst q. injection He as <-. right. split; [reflexivity|]. congruence.
           ++ left. exists q. auto.
        -- intros [(q & Hq & He)|[-> H]].
           ++ exists q. split; [exact Hq|]. destruct (text_eqb q p) eqn:E; [|exact He]. apply text_eqb_eq in E. congruence.
           ++ exists p. rewrite H, text_eqb_refl. auto.
      * intros q f K. cbn [set_data dk_entry dk_next] in *. destruct (text_eqb q p); [injection K as <-; lia|]. apply S in K. lia.
    + intros g [(q & K & E)|q K E C]; congruence.
Qed.

Lemma process_is : forall info init_ok env d table words, repaired table ->
  process info init_ok env d table words =
  match verdict words with
  | DBad => Ret (64, [], d)
  | DInfo k => Ret (0, info k, d)
  | DRun events =>
    match parse_events events 0 default_args with
    | None => Ret (64, [], d)
    | Some a => match arg_src a with None => Undef UbNull | Some src => main_disk init_ok env d src (arg_out a) end
    end
  end.
Proof.
  intros info init_ok env d table words R. destruct (repaired_count _ R) as (A & B & _). unfold process. rewrite A. cbn [bind].
  change (Z.to_nat 1) with 1%nat. rewrite B. change (short_options options) with shorts. change (long_options options) with longs.
  unfold verdict. destruct (getopt shorts longs words). reflexivity.
Qed.

Lemma parse_command : forall outs args,
  parse_events (map EvOutput outs ++ map EvArg args) 0 default_args =
  match args with [src] => Some (mkArgs (Some src) (last outs (T "a.out"))) | _ => None end.
Proof.
  intros outs args. destruct (events_of_command outs args) as (A & O & N). rewrite parse_events_spec by (lia || exact N).
  rewrite A, O. change (1 <? 0) with false. cbn [andb]. rewrite orb_false_r.
  destruct args as [|x [|y args]]; cbn [List.length]; [reflexivity|reflexivity|].
  destruct (Z.eqb_spec (0 + Z.of_nat (S (S (List.length args)))) 1); [lia|reflexivity].
Qed.

Theorem C75_process : forall info d table words, repaired table -> sound d ->
  (forall f, Z.of_nat (List.length (dk_data d f)) < 20000000) ->
  Invocation info d words (process info true no_failure d table words).
Proof.
  intros info d table words R S B. rewrite process_is by exact R.
  destruct (verdict_cases _ words (le_n _)) as [(outs & args & C)|[(r & A)|V]].
  - rewrite (verdict_command _ _ _ C), parse_command.
    assert (U : List.length args <> 1%nat -> Invocation info d words (Ret (64, [], d))) by (intro K; eapply inv_usage; eauto).
    destruct args as [|src [|y args]]; [apply U; discriminate| |apply U; discriminate]. cbn [arg_src arg_out]. clear U.
    unfold main_disk. cbn [negb]. pose proof (open_read_ok d src) as OR. destruct (open_read d src) as [f|].
    2:{ eapply inv_no_source; eauto. unfold print_error.
        change (error_message ERROR_FILE_OPEN_FAIL src) with (Some (T "ERROR: " ++ src ++ T " could not be opened" ++ [ch_nl])).
        unfold no_source_report. cbn [bind app]. rewrite <- !app_assoc. reflexivity. }
    pose proof (open_write_ok d (last outs (T "a.out")) S) as OW. destruct (open_write d (last outs (T "a.out"))) as [[g d1]|].
    2:{ eapply inv_no_output; eauto. }
    destruct OW as (G & E & O & W).
    set (source := map chr (dk_data d1 f)).
    assert (Hs : source = if Nat.eqb f g then [] else map chr (dk_data d f)).
    { unfold source. destruct (Nat.eqb_spec f g) as [-> |K]; [rewrite E; reflexivity|rewrite O by exact K; reflexivity]. }
    assert (Sm : small source).
    { unfold small. rewrite Hs. destruct (Nat.eqb f g); [reflexivity|]. rewrite map_length. apply B. }
    destruct (C74_pieces source) as (l & P). destruct (C74_total l 1 (mkD 0 [] [])) as (st & h & H).
    pose proof (C74_result src source l st h Sm P H) as Res.
    eapply (inv_assembled info d words _ outs src f g source l st h (gaia src source)); eauto.
    change (assemble no_failure src source) with (gaia src source).
    destruct (gaia src source) as [o|u|] eqn:Eg; cbn [bind].
    + eexists. split; [reflexivity|]. apply W.
    + reflexivity.
    + destruct h; cbn [result] in Res; try (destruct (complete _ _ _) as [?|[? ?]]); decompose [ex and] Res; discriminate.
  - rewrite (verdict_asks _ _ A). eapply inv_text; eauto.
  - rewrite V. apply inv_refused; [| |reflexivity].
    + intros o a C. apply verdict_command in C. congruence.
    + intros r A. apply verdict_asks in A. congruence.
Qed.

(** *** consequences *)
(** only the file the output goes to changes, also if allocations fail *)
Theorem C75_others : forall info init_ok env d table words code text d', repaired table -> sound d ->
  process info init_ok env d table words = Ret (code, text, d') ->
  forall f, dk_data d' f <> dk_data d f -> exists outs src, Command words outs [src] /\ goes_to d (last outs (T "a.out")) f.
Proof.
  intros info init_ok env d table words code text d' R S H f Nf. rewrite process_is in H by exact R.
  destruct (verdict_cases _ words (le_n _)) as [(outs & args & C)|[(r & A)|V]].
  - rewrite (verdict_command _ _ _ C), parse_command in H.
    destruct args as [|src [|y args]]; [injection H as _ _ <-; congruence| |injection H as _ _ <-; congruence]. cbn [arg_src arg_out] in H.
    exists outs, src. split; [exact C|]. unfold main_disk in H. destruct init_ok; cbn [negb] in H; [|cbn in H; injection H as _ _ <-; congruence].
    destruct (open_read d src) as [k|].
    2:{ cbn in H. injection H as _ _ <-. congruence. }
    pose proof (open_write_ok d (last outs (T "a.out")) S) as OW. destruct (open_write d (last outs (T "a.out"))) as [[g d1]|].
    2:{ cbn in H. injection H as _ _ <-. congruence. }
    destruct OW as (G & E & O & W). destruct (assemble _ _ _) as [o| |]; cbn [bind] in H; try discriminate. injection H as _ _ <-.
    destruct (Nat.eq_dec f g) as [-> |K]; [exact G|]. exfalso. apply Nf. apply (w_others _ _ _ _ _ (W (binary o))). exact K.
  - rewrite (verdict_asks _ _ A) in H. injection H as _ _ <-. congruence.
  - rewrite V in H. injection H as _ _ <-. congruence.
Qed.

(** the source is lost exactly when the output leads to the same file: then it is empty, and the run a success *)
Theorem C75_same_file : forall info d table words outs src f, repaired table -> sound d -> Command words outs [src] ->
  readable d src f -> names d (last outs (T "a.out")) f -> dk_writes d f = true ->
  exists text d', process info true no_failure d table words = Ret (0, text, d') /\ SuccessReport 0 0 text /\ dk_data d' f = [].
Proof.
  intros info d table words outs src f R S C Rd N Wr. rewrite process_is by exact R. rewrite (verdict_command _ _ _ C), parse_command. cbn [arg_src arg_out].
  unfold main_disk. cbn [negb]. pose proof (open_read_ok d src) as OR. destruct (open_read d src) as [k|]; [|elim (OR _ Rd)].
  assert (k = f) as -> by (eapply names_fun; [apply OR|apply Rd]).
  pose proof (open_write_ok d (last outs (T "a.out")) S) as OW. destruct (open_write d (last outs (T "a.out"))) as [[g d1]|].
  2:{ elim (OW f). constructor 1; assumption. }
  destruct OW as (G & E & O & W). assert (g = f) as ->.
  { destruct G as [G _|p Hp He]; [eapply names_fun; eauto|]. destruct N as (q & Hq & Hf). congruence. }
  rewrite E. change (assemble no_failure src (map chr [])) with (gaia src []).
  destruct (gaia src []) as [o| |] eqn:Eo; vm_compute in Eo; try discriminate. injection Eo as <-. cbn [bind exit_code stdout binary].
  do 2 eexists. split; [reflexivity|]. split; [reflexivity|]. apply (w_data _ _ _ _ _ (W [])).
Qed.

(** otherwise it keeps its contents, also if allocations fail *)
Theorem C75_kept : forall info init_ok env d table words code text d' outs src f, repaired table -> sound d -> Command words outs [src] ->
  process info init_ok env d table words = Ret (code, text, d') ->
  names d src f -> ~ names d (last outs (T "a.out")) f -> dk_data d' f = dk_data d f /\ names d' src f.
Proof.
  intros info init_ok env d table words code text d' outs src f R S C H N N2. rewrite process_is in H by exact R.
  rewrite (verdict_command _ _ _ C), parse_command in H. cbn [arg_src arg_out] in H. unfold main_disk in H.
  destruct init_ok; cbn [negb] in H; [|cbn in H; injection H as _ _ <-; auto].
  destruct (open_read d src) as [k|]; [|cbn in H; injection H as _ _ <-; auto].
  pose proof (open_write_ok d (last outs (T "a.out")) S) as OW. destruct (open_write d (last outs (T "a.out"))) as [[g d1]|]; [|cbn in H; injection H as _ _ <-; auto].
  destruct OW as (G & E & O & W). destruct (assemble _ _ _) as [o| |]; cbn [bind] in H; try discriminate. injection H as _ _ <-.
  specialize (W (binary o)). split.
  - apply (w_others _ _ _ _ _ W). intros ->. destruct G as [G _|p Hp He Hc Fr]; [contradiction|]. destruct N as (q & _ & Hq). exact (Fr q Hq).
  - apply (w_names _ _ _ _ _ W). auto.
Qed.

(** ** Without links it is the model of src/main.c used for the other properties *)
Definition plain_disk (d : Disk) : Prop :=
  (forall n, dk_leads d n = Some n) /\ (forall p q f, dk_entry d p = Some f -> dk_entry d q = Some f -> p = q) /\
  (forall f, dk_reads d f = true) /\ sound d.
Definition fs_of (d : Disk) : FileSystem :=
  mkFS (fun n => option_map (dk_data d) (dk_entry d n))
       (fun n => match dk_entry d n with Some f => dk_writes d f | None => dk_creates d n end).

Theorem C75_plain : forall init_ok env d src out, plain_disk d ->
  match main_disk init_ok env d src out with
  | Ret (code, text, d') => exists fs', main init_ok env (fs_of d) src out = Ret (code, text, fs') /\ forall n, fs_file fs' n = fs_file (fs_of d') n
  | Undef u => main init_ok env (fs_of d) src out = Undef u
  | Diverge => main init_ok env (fs_of d) src out = Diverge
  end.
Proof.
  intros init_ok env d src out (L & I & R & S). unfold main_disk, main. destruct init_ok; cbn [negb]; [|cbn; eauto].
  unfold open_read, file_at. rewrite L. cbn [fs_of fs_file option_map]. destruct (dk_entry d src) as [f|] eqn:Ef; [|cbn; eauto].
  rewrite R. unfold open_write. rewrite L.
  change (fs_creatable (fs_of d) out) with (match dk_entry d out with Some g => dk_writes d g | None => dk_creates d out end).
  assert (Sr : forall g (d1 : Disk), (if Nat.eqb f g then [] else dk_data d f) = dk_data d1 f ->
     text_eqb src out = Nat.eqb f g ->
     map chr (dk_data d1 f) = match fs_file (fs_write (fs_of d) out []) src with Some c => map chr c | None => [] end).
  { intros g d1 H1 H2. cbn [fs_write fs_file fs_of]. rewrite H2, Ef, <- H1. cbn [option_map]. destruct (Nat.eqb f g); reflexivity. }
  destruct (dk_entry d out) as [g|] eqn:Eg.
  - destruct (dk_writes d g); cbn [negb]; [|cbn; eauto].
    assert (Q : text_eqb src out = Nat.eqb f g).
    { destruct (text_eqb src out) eqn:E1, (Nat.eqb_spec f g) as [E2|E2]; try reflexivity; exfalso.
      - apply text_eqb_eq in E1. subst. congruence.
      - subst g. assert (src = out) by (eapply I; eauto). subst. rewrite text_eqb_refl in E1. discriminate. }
    cbv zeta. rewrite <- (Sr g (set_data d g [])); [|reflexivity|exact Q].
    destruct (assemble _ _ _) as [o|u|]; cbn [bind]; try reflexivity. eexists. split; [reflexivity|]. intro n.
    cbn [fs_write fs_of fs_file set_data dk_entry dk_data]. destruct (text_eqb n out) eqn:E.
    + apply text_eqb_eq in E. subst n. rewrite Eg. cbn [option_map]. rewrite Nat.eqb_refl. reflexivity.
    + destruct (dk_entry d n) as [k|] eqn:En; [|reflexivity]. cbn [option_map]. destruct (Nat.eqb_spec k g) as [-> |K]; [|reflexivity].
      assert (n = out) by (eapply I; eauto). subst. rewrite text_eqb_refl in E. discriminate.
  - destruct (dk_creates d out); cbn [negb]; [|cbn; eauto].
    pose proof (S _ _ Ef) as Lf. assert (Q : text_eqb src out = Nat.eqb f (dk_next d)).
    { destruct (Nat.eqb_spec f (dk_next d)); [lia|]. destruct (text_eqb src out) eqn:E1; [|reflexivity]. apply text_eqb_eq in E1. congruence. }
    cbv zeta. match goal with |- context [map chr (dk_data ?x f)] => rewrite <- (Sr (dk_next d) x); [|cbn [dk_data]; destruct (Nat.eqb f (dk_next d)); reflexivity|exact Q] end.
    destruct (assemble _ _ _) as [o|u|]; cbn [bind]; try reflexivity. eexists. split; [reflexivity|]. intro n.
    cbn [fs_write fs_of fs_file set_data dk_entry dk_data]. destruct (text_eqb n out) eqn:E.
    + cbn [option_map]. rewrite Nat.eqb_refl. reflexivity.
    + destruct (dk_entry d n) as [k|] eqn:En; [|reflexivity]. cbn [option_map]. pose proof (S _ _ En).
      destruct (Nat.eqb_spec k (dk_next d)) as [-> |K]; [lia|reflexivity].
Qed.

(** ** The hypotheses are met *)
(** p.asm is a file; old.bin is a hard link to it; b is a symbolic link to old.bin; c is one to new.bin, which is missing;
    lost leads nowhere *)
Definition demo_disk : Disk :=
  mkDisk (fun n => if text_eqb n (T "b") then Some (T "old.bin") else if text_eqb n (T "c") then Some (T "new.bin")
                   else if text_eqb n (T "lost") then None else Some n)
         (fun p => if text_eqb p (T "p.asm") || text_eqb p (T "old.bin") then Some 0%nat else None)
         (fun f => if Nat.eqb f 0 then map code (T "LDA #5" ++ [ch_nl]) else []) (fun _ => true) (fun _ => true) (fun _ => true) 1.

Lemma demo_sound : sound demo_disk.
Proof. intros p f H. cbn in H. destruct (_ || _); [injection H as <-; cbn; lia|discriminate]. Qed.

Definition demo_table : list ArgpOption := options ++ [end_entry].
Lemma demo_repaired : repaired demo_table.
Proof. exists end_entry, []. split; reflexivity. Qed.

Lemma demo_command : forall src out, plain src -> Command [src; T "-o"; out] [out] [src].
Proof. intros src out P. apply cmd_arg; [exact P|]. apply (cmd_option [T "-o"; out] (Some out) [] [] []); constructor. Qed.

Lemma p_plain : plain (T "p.asm").
Proof. intros c w K. discriminate. Qed.

(** the source is lost through two links *)
Example C75_same_case : exists text d', process (fun _ => []) true no_failure demo_disk demo_table [T "p.asm"; T "-o"; T "b"] = Ret (0, text, d') /\
  names demo_disk (T "b") 0 /\ names demo_disk (T "p.asm") 0 /\ dk_data d' 0 = [].
Proof.
  assert (Nb : names demo_disk (T "b") 0) by (exists (T "old.bin"); split; reflexivity).
  assert (Np : names demo_disk (T "p.asm") 0) by (exists (T "p.asm"); split; reflexivity).
  destruct (C75_same_file (fun _ => []) demo_disk demo_table [T "p.asm"; T "-o"; T "b"] [T "b"] (T "p.asm") 0 demo_repaired demo_sound
    (demo_command _ _ p_plain)) as (text & d' & A & _ & B).
  - split; [exact Np|reflexivity].
  - exact Nb.
  - reflexivity.
  - exists text, d'. auto.
Qed.

(** the output is created where the link leads *)
Example C75_created_case : exists text d', process (fun _ => []) true no_failure demo_disk demo_table [T "p.asm"; T "-o"; T "c"] = Ret (0, text, d') /\
  (forall f, ~ names demo_disk (T "new.bin") f) /\ names d' (T "new.bin") 1 /\ names d' (T "c") 1 /\ dk_data d' 1 = [169; 5] /\
  dk_data d' 0 = dk_data demo_disk 0.
Proof.
  destruct (process (fun _ => []) true no_failure demo_disk demo_table [T "p.asm"; T "-o"; T "c"]) as [[[code text] d']| |] eqn:E;
    vm_compute in E; try discriminate.
  injection E as <- <- <-. do 2 eexists. split; [reflexivity|].
  split; [intros f (p & K & F); vm_compute in K; injection K as <-; vm_compute in F; discriminate|].
  split; [exists (T "new.bin"); split; vm_compute; reflexivity|].
  split; [exists (T "new.bin"); split; vm_compute; reflexivity|]. split; vm_compute; reflexivity.
Qed.

Example C75_case : repaired demo_table /\ sound demo_disk /\ (forall f, Z.of_nat (List.length (dk_data demo_disk f)) < 20000000) /\
  Command [T "p.asm"; T "-o"; T "c"] [T "c"] [T "p.asm"] /\ readable demo_disk (T "p.asm") 0 /\ goes_to demo_disk (T "c") 1 /\
  (forall f, ~ readable demo_disk (T "lost") f) /\ (forall g, ~ goes_to demo_disk (T "lost") g).
Proof.
  split; [exact demo_repaired|]. split; [exact demo_sound|].
  split; [intro f; cbn [demo_disk dk_data]; destruct (Nat.eqb f 0); vm_compute; reflexivity|].
  split; [apply demo_command; exact p_plain|]. split; [split; [exists (T "p.asm"); split; reflexivity|reflexivity]|].
  split; [apply (goes_new demo_disk (T "c") 1 (T "new.bin")); try reflexivity; intros q K; cbn in K; destruct (_ || _); discriminate|].
  split; [intros f [(p & K & _) _]; discriminate|]. intros g [(p & K & _)|p K]; discriminate.
Qed.

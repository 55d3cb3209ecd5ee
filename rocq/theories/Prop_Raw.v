(** Prop_Raw.v -- C78: the bytes behind the end of a string are never looked at, and no array is left. *)
From Verif Require Import Base Model_Opcode Model_Error Model_Lexer Model_SymbolTable Model_Parser Model_ForwardRef
  Model_Generator Model_Main Model_Raw Proof_Eight Prop_Run Proof_Raw Proof_Raw2.

Lemma ref_bind_same : forall (A C D : Type) (Q : C -> D -> Prop) (m : M A) f g,
  (forall y, m = Ret y -> refines Q (f y) (g y)) -> refines Q (bind m f) (bind m g).
Proof. intros A C D Q m f g K z E. destruct m as [y|u|]; cbn [bind] in *; try discriminate E. exact (K y eq_refl z E). Qed.

(** an array of a token that holds a string *)
Definition array_ok (a : mem) : Prop := List.length a = MAX_TOKEN_STR_LEN /\ In ch_nul a.

Lemma get_array : forall (strs : list mem) seq i t, map tk_str seq = map cstring strs -> Forall array_ok strs -> get seq i = Ret t ->
  exists a, get strs i = Ret a /\ array_ok a /\ cstring a = tk_str t.
Proof.
  intros strs seq i t E F G. unfold get in *. destruct (i <? 0); [discriminate G|].
  revert seq E G. generalize (Z.to_nat i). clear i. induction F as [|a strs A F IH]; intros n [|u seq] E G;
    cbn [map] in E; try discriminate E; destruct n as [|n]; cbn [nth_error] in *; try discriminate G.
  - injection E as E1 E2. injection G as <-. exists a. split; [reflexivity|]. split; [exact A|]. symmetry. exact E1.
  - injection E as E1 E2. exact (IH n seq E2 G).
Qed.

Lemma process_instruction_ok : forall env a s (strs : list mem) st, str_at a 0 s -> Forall array_ok strs ->
  map tk_str (lx_seq (st_lexer st)) = map cstring strs ->
  refines eq (process_instruction_raw env a strs st) (process_instruction env s st).
Proof.
  intros env a s strs st H F E. unfold process_instruction_raw, process_instruction.
  apply ref_bind_same. intros operand EO. apply ref_bind_same. intros [[status l1] o1] EP.
  pose proof (operand_kept _ _ _ _ _ _ _ EP) as K. unfold kept in K. rewrite E in K.
  destruct (IS_ERROR status); [apply ref_same|].
  apply ref_bind_same. intros [[rc i2] o2] EM.
  apply (ref_bind _ _ _ _ eq).
  - destruct (rc =? FORWARD_REFERENCE); [|apply ref_same]. destruct operand as [i|]; [|apply ref_same].
    apply ref_bind_same. intros tok EG.
    destruct (get_array _ _ _ _ K F EG) as (arr & -> & A & C). cbn [bind].
    apply (ref_bind _ _ _ _ eq); [|intros x ? <-; apply ref_same].
    apply create_forward_ref_ok; [exact H|]. split; [exact A|].
    unfold see_token, tk_set_str. cbn [tk_str tk_type tk_value tk_error_char tk_loc]. rewrite C. destruct tok; reflexivity.
  - intros x ? <-. apply ref_same.
Qed.

Lemma after_lex_ok : forall env a s (strs : list mem) st code l t i o, str_at a 0 s -> Forall array_ok strs ->
  map tk_str (lx_seq l) = map cstring strs ->
  lex_line s (st_lexer st) (st_tk st) (st_instr st) (st_line_num st) = Ret (code, l, t, i, o) ->
  refines eq (after_lex_raw env a strs st code l t i o) (process_line env s st).
Proof.
  intros env a s strs st code l t i o H F E EL. unfold process_line. rewrite EL. cbn [bind]. unfold after_lex_raw.
  destruct (IS_ERROR code); [apply ref_same|].
  apply ref_bind_same. intros [[rc l2] o2] EP. pose proof (parse_line_kept _ _ _ _ EP) as K. unfold kept in K. rewrite E in K.
  destruct (IS_ERROR rc); [apply ref_same|].
  apply ref_bind_same. intros first EF.
  assert (REST : forall st', map tk_str (lx_seq (st_lexer st')) = map cstring strs -> refines eq
    (match i_mnemonic i with
     | NULL_MNEMONIC => line_num <- int_of (st_line_num st' + 1) ;;
          Ret (Next (mkSt (st_symtab st') (st_unresolved st') (st_pc st') line_num (st_written st') (st_total st') (st_out st')
                          (st_lexer st') (st_tk st') (st_instr st') (st_stdout st')))
     | _ => process_instruction_raw env a strs st' end)
    (match i_mnemonic i with
     | NULL_MNEMONIC => line_num <- int_of (st_line_num st' + 1) ;;
          Ret (Next (mkSt (st_symtab st') (st_unresolved st') (st_pc st') line_num (st_written st') (st_total st') (st_out st')
                          (st_lexer st') (st_tk st') (st_instr st') (st_stdout st')))
     | _ => process_instruction env s st' end)).
  { intros st' E'. destruct (i_mnemonic i); solve [apply process_instruction_ok; assumption | apply ref_same]. }
  destruct (tk_type first); try solve [apply REST; exact K | apply ref_same].
  - apply ref_bind_same. intros [[[c l3] tab] o3] ED. pose proof (declaration_kept _ _ _ _ _ _ _ _ _ ED) as K3.
    unfold kept in K3. rewrite K in K3. destruct (IS_ERROR c); [apply ref_same|]. apply REST. exact K3.
  - apply ref_bind_same. intros [[[c l3] tab] o3] ED. pose proof (declaration_kept _ _ _ _ _ _ _ _ _ ED) as K3.
    unfold kept in K3. rewrite K in K3. destruct (IS_ERROR c); [apply ref_same|]. apply REST. exact K3.
Qed.

Definition size_ok (a : mem) : Prop := List.length a = MAX_TOKEN_STR_LEN.

Lemma with_strs_length : forall seq strs, List.length strs = List.length seq -> List.length (with_strs seq strs) = List.length seq.
Proof. intros seq strs L. unfold with_strs. rewrite map_length, combine_length. lia. Qed.

Lemma with_strs_sizes : forall seq strs, Forall size_ok strs ->
  Forall (fun t => List.length (tk_str t) = MAX_TOKEN_STR_LEN) (with_strs seq strs).
Proof.
  intros seq strs F. revert seq. induction F as [|a strs A F IH]; intros [|t seq]; unfold with_strs; cbn [combine map]; constructor;
    [exact A|apply IH].
Qed.

Lemma process_line_raw_ok : forall env a s strs tkstr st r, str_at a 0 s ->
  List.length strs = 8%nat -> Forall size_ok strs -> size_ok tkstr -> eight (st_lexer st) ->
  process_line env s st = Ret r ->
  exists strs1 tkstr1, process_line_raw env a strs tkstr st = Ret (r, strs1, tkstr1) /\
    List.length strs1 = 8%nat /\ Forall size_ok strs1 /\ size_ok tkstr1.
Proof.
  intros env a s strs tkstr st r H LS FS ST E8 E. unfold process_line_raw.
  pose proof E as EE. unfold process_line in EE.
  destruct (lex_line s (st_lexer st) (st_tk st) (st_instr st) (st_line_num st)) as [[[[[code l] t] i] o]|u|] eqn:EL;
    cbn [bind] in EE; try discriminate EE. clear EE.
  destruct (lex_line_raw_ok a s (lx_set_seq (st_lexer st) (with_strs (lx_seq (st_lexer st)) strs)) (st_lexer st)
             (tk_set_str (st_tk st) tkstr) (st_tk st) (st_instr st) (st_line_num st) H) with (y := (code, l, t, i, o))
    as ([[[[code' l'] t'] i'] o'] & -> & (EC & HL & HT & EI & EO)); [|apply with_strs_sizes; exact FS|exact ST|reflexivity|exact EL|].
  { cbn [lx_set_seq lx_seq]. apply with_strs_length. unfold eight in E8. lia. }
  subst code' i' o'. cbn [bind].
  assert (ES : see_lexer l' = l) by apply HL. assert (ET : see_token t' = t) by apply HT. rewrite ES, ET.
  assert (FA : Forall array_ok (map tk_str (lx_seq l'))).
  { destruct HL as (F & _ & _). induction F as [|x xs X F IH]; cbn [map]; constructor; [exact X|exact IH]. }
  assert (EM : map tk_str (lx_seq l) = map cstring (map tk_str (lx_seq l'))).
  { rewrite <- ES. cbn [see_lexer lx_seq]. rewrite !map_map. reflexivity. }
  destruct (after_lex_ok env a s _ st code l t i o H FA EM EL r E) as (r' & -> & ->). cbn [bind].
  exists (map tk_str (lx_seq l')), (tk_str t'). split; [reflexivity|]. split; [|split].
  - rewrite map_length. rewrite (Forall2_len _ _ _ _ _ (LR_seq _ _ HL)).
    rewrite (lex_line_len _ _ _ _ _ _ _ _ _ _ EL). exact E8.
  - clear - FA. induction FA as [|x xs X F IH]; constructor; [apply X|exact IH].
  - exact (proj1 (proj1 HT)).
Qed.

Lemma line_str_at : forall l junk, str_at (l ++ ch_nul :: junk) 0 (cstring l).
Proof.
  intros l junk. replace (cstring l) with (cstring (l ++ ch_nul :: junk)).
  - apply nul_str_at. apply in_or_app. right. left. reflexivity.
  - induction l as [|c l IH]; cbn [app cstring]; [reflexivity|]. destruct (Ascii.eqb c ch_nul); [reflexivity|]. rewrite IH. reflexivity.
Qed.

Lemma run_lines_raw_ok : forall junk env lines k strs tkstr st r,
  List.length strs = 8%nat -> Forall size_ok strs -> size_ok tkstr -> eight (st_lexer st) ->
  run_lines env lines st = Ret r -> run_lines_raw junk k env lines strs tkstr st = Ret r.
Proof.
  intros junk env. induction lines as [|l lines IH]; intros k strs tkstr st r LS FS ST E8 E; cbn [run_lines run_lines_raw] in *; [exact E|].
  destruct (process_line (env (st_line_num st)) (cstring l) st) as [r1| |] eqn:EP; cbn [bind] in E; try discriminate E.
  destruct (process_line_raw_ok _ (l ++ ch_nul :: junk k) _ strs tkstr st r1 (line_str_at l (junk k)) LS FS ST E8 EP)
    as (strs1 & tkstr1 & -> & LS1 & FS1 & ST1). cbn [bind].
  destruct r1 as [st'|st'|st']; try exact E.
  apply IH; try assumption. pose proof (eight_process (env (st_line_num st)) (cstring l) st E8) as G. rewrite EP in G. exact G.
Qed.

(** ** C78 *)
(** The whole run.  [junk k]: any bytes behind the NUL of the line read by the call number [k] of fgets, of any number -- with
    none the buffer ends with the NUL and a read behind it would be outside of the array.  [strs], [tkstr]: any contents of
    the arrays of the tokens when the program starts. *)
Theorem C78_run : forall junk strs tkstr env file src o,
  List.length strs = 8%nat -> Forall (fun a => List.length a = 64%nat) strs -> List.length tkstr = 64%nat ->
  assemble env file src = Ret o -> assemble_raw junk strs tkstr env file src = Ret o.
Proof.
  intros junk strs tkstr env file src o LS FS ST E. unfold assemble_raw, assemble in *.
  destruct (run_lines env (chunks src) (init_state file)) as [r| |] eqn:ER; cbn [bind] in E; try discriminate E.
  rewrite (run_lines_raw_ok junk env (chunks src) 0 strs tkstr (init_state file) r LS FS ST eq_refl ER). cbn [bind]. exact E.
Qed.

(** defined, and the same for all contents of the memory *)
Theorem C78_defined : forall env file src,
  Z.of_nat (List.length src) < 20000000 -> Forall (fun c => code c < 128) src ->
  exists o, assemble env file src = Ret o /\
  forall junk strs tkstr, List.length strs = 8%nat -> Forall (fun a => List.length a = 64%nat) strs -> List.length tkstr = 64%nat ->
      assemble_raw junk strs tkstr env file src = Ret o.
Proof.
  intros env file src HL HA. destruct (C37_ascii env file src HL HA) as (o & E). exists o. split; [exact E|].
  intros junk strs tkstr LS FS ST. apply C78_run; assumption.
Qed.

(** print_error on the bytes of the line, whatever stands behind its NUL *)
Theorem C78_print : forall line junk code bad file num out, ~ In ch_nul line ->
  print_error (Some line) code bad file num = Ret out ->
  print_error_raw (Some (line ++ ch_nul :: junk)) code bad file num = Ret out.
Proof.
  intros line junk code bad file num out N E.
  destruct (print_error_ok (Some (line ++ ch_nul :: junk)) (Some line) code bad file num) with (y := out) as (x & -> & ->);
    [|exact E|reflexivity].
  exists [], junk. split; [reflexivity|]. split; [reflexivity|exact N].
Qed.

(** the strings compared, measured, hashed and copied by the program *)
Theorem C78_strings : forall s t junk junk2, ~ In ch_nul s -> ~ In ch_nul t ->
  strlen (s ++ ch_nul :: junk) 0 = Ret (List.length s) /\
  strcmp_equal (s ++ ch_nul :: junk) (t ++ ch_nul :: junk2) = Ret (text_eqb s t) /\
  djb2_hash_raw (s ++ ch_nul :: junk) = Ret (djb2_hash s) /\
  str_to_mnemonic_raw mnemonic_strings (s ++ ch_nul :: junk) = Ret (str_to_mnemonic s) /\
  symbol_label_raw (s ++ ch_nul :: junk) = Ret (s ++ [ch_nul]).
Proof.
  intros s t junk junk2 NS NT.
  assert (HS : str_at (s ++ ch_nul :: junk) 0 s) by (exists [], junk; repeat split; assumption).
  assert (HT : str_at (t ++ ch_nul :: junk2) 0 t) by (exists [], junk2; repeat split; assumption).
  split; [exact (strlen_at _ _ _ HS)|]. split; [exact (strcmp_at _ _ _ _ HS HT)|]. split; [exact (djb2_at _ _ HS)|].
  split; [exact (str_to_mnemonic_ok _ _ HS)|].
  unfold symbol_label_raw. rewrite (strlen_at _ _ _ HS). cbn [bind].
  rewrite (memcpy_string _ _ _ _ _ HS eq_refl) by (rewrite repeat_length; lia).
  f_equal. f_equal. clear. induction s as [|c s IH]; [reflexivity|exact IH].
Qed.

(** Not trivial: two memories, full of different bytes; a program with tabs, a comment, an unfinished last line and a
    forward reference; and one that is refused with a message that shows the line *)
Definition memory1 : list mem := repeat (repeat "Q"%char 64) 8.
Definition memory2 : list mem := repeat (T "LDA" ++ ch_nul :: repeat "7"%char 60) 8.
Example C78_case :
  let env := fun _ => mkAlloc true true true true in
  let src := T "start: lda #$12 ; c" ++ [ch_nl; ch_tab] ++ T "jmp there" ++ [ch_sp; ch_nl] ++ T "there rts" in
  let bad := T "start: lda #$12" ++ [ch_nl; ch_tab] ++ T "bne (where" ++ [ch_nl] in
  assemble_raw (fun _ => []) memory1 (repeat "Q"%char 64) env (T "a.asm") src
  = assemble_raw (fun k => repeat "X"%char (k + 3)) memory2 (repeat ch_tab 64) env (T "a.asm") src /\
  match assemble_raw (fun _ => []) memory1 (repeat "Q"%char 64) env (T "a.asm") src with
  | Ret o => exit_code o = 0 /\ binary o = [0xA9; 0x12; 0x4C; 0x05; 0x00; 0x60] | _ => False end /\
  assemble_raw (fun _ => []) memory1 (repeat "Q"%char 64) env (T "a.asm") bad
  = assemble_raw (fun k => repeat "X"%char (k + 3)) memory2 (repeat ch_tab 64) env (T "a.asm") bad /\
  match assemble_raw (fun _ => []) memory1 (repeat "Q"%char 64) env (T "a.asm") bad with
  | Ret o => exit_code o = 1 | _ => False end.
Proof. vm_compute. repeat split. Qed.

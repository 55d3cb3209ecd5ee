(** Prop_Isa.v -- C01, C02: the opcode table and the mnemonics. *)
From Verif Require Import Base Proof_Base Model_Opcode Model_Lexer Spec_Isa Spec_Text Spec_Link
  Proof_Opcode Proof_Chars Proof_Lex1.

(** C01: the opcode computed for a mnemonic and an addressing-mode flag is the one of
    the CSV file; pairs that are not in the file, and flag words that are not exactly
    one mode, give an error code (negative); and the bit field advertised for a
    mnemonic has the bit of a mode set exactly when the file lists that mode. *)
Theorem C01_opcode_table : forall m name md bitfield opcode0, mnemonic_name m = Some name ->
  (forall op, documented name md op -> get_opcode (mkInstr m bitfield (flag_of md) opcode0) = op) /\
  (~ has_mode name md ->
     get_opcode (mkInstr m bitfield (flag_of md) opcode0) = ERROR_ILLEGAL_ADDRESSING_MODE) /\
  (Z.land (get_addr_bitfield m) (flag_of md) <> 0 <-> has_mode name md).
Proof.
  intros m name md bf o Hn. rewrite (get_opcode_listed m name md bf o Hn).
  split; [|split].
  - intros op H. apply documented_listed in H. destruct H as [b ->]. reflexivity.
  - intro H. destruct (listed name md) as [[op b]|] eqn:E; auto.
    exfalso. apply H. exists op. apply documented_listed. eauto.
  - apply bitfield_spec, Hn.
Qed.

(** no flag word other than the 13 modes has an opcode *)
Theorem C01_no_other_flag : forall m name flag bitfield opcode0, mnemonic_name m = Some name ->
  (forall md, flag <> flag_of md) ->
  get_opcode (mkInstr m bitfield flag opcode0) = ERROR_ILLEGAL_ADDRESSING_MODE.
Proof. intros. eapply get_opcode_other; eauto. Qed.

(** every documented mnemonic is one of the enum, and an opcode byte is documented
    for one pair only *)
Theorem C01_table_complete : forall name, is_name name -> exists m, mnemonic_name m = Some name.
Proof. intros name H. apply is_name_mnemonic, H. Qed.

Theorem C01_opcodes_distinct : forall n1 d1 n2 d2 op,
  documented n1 d1 op -> documented n2 d2 op -> n1 = n2 /\ d1 = d2.
Proof.
  intros n1 d1 n2 d2 op H1 H2. apply documented_listed in H1, H2.
  destruct H1 as [b1 H1], H2 as [b2 H2]. apply decode_listed in H1, H2.
  rewrite H1 in H2. injection H2 as -> -> _. auto.
Qed.

Example C01_example :
  mnemonic_name LDA = Some "LDA"%string /\ documented "LDA" INDY 0xB1 /\ ~ has_mode "LDA" ZPY /\
  get_opcode (mkInstr LDA 0 (flag_of INDY) 0) = 0xB1.
Proof.
  split; [reflexivity|]. split.
  - apply documented_listed. exists 2. reflexivity.
  - split; [|reflexivity]. intros [op H]. apply documented_listed in H. destruct H as [b H]. discriminate H.
Qed.

(** C02: a word (letters, digits, underscores, at most 63, followed by a delimiter or
    a colon) is lexed as an instruction exactly when it is a documented mnemonic up
    to case, and then the instruction has that mnemonic. *)
Theorem C02_mnemonic_recognition : forall off w s tk instr,
  ident w -> (List.length w <= 63)%nat -> delimited s \/ colon_next s ->
  exists tk' instr',
    lex off (w ++ s) tk instr = Ret (Z.of_nat (List.length w), tk', instr') /\
    (tk_type tk' = TOKEN_INSTRUCTION <-> exists name, is_name name /\ map upper w = T name) /\
    (forall name, is_name name -> map upper w = T name ->
       mnemonic_name (i_mnemonic instr') = Some name /\
       i_bitfield instr' = get_addr_bitfield (i_mnemonic instr')) /\
    (~ (exists name, is_name name /\ map upper w = T name) -> instr' = instr).
Proof.
  intros off w s tk instr I L D.
  assert (M : ident_means w (means w)) by (apply ident_means_iff; reflexivity).
  exists (tk_next tk (means w, off)), (instr_next instr (means w)).
  rewrite (lex_ident off w s tk instr (means w) I L D M). split; [reflexivity|].
  cbn [tk_next tk_type fst].
  assert (C : forall name, is_name name -> map upper w = T name -> means w = TMnemonic name).
  { intros name Hn E. symmetry. apply ident_means_iff. apply means_mnemonic; auto. }
  repeat split.
  - intro E. inversion M as [E1 K|E1 K|E1 K|name Hn E1 K|N1 N2 N3 N4 K]; rewrite <- K in E;
      try discriminate E. eauto.
  - intros (name & Hn & E). rewrite (C name Hn E). reflexivity.
  - rewrite (C name H H0). cbn [instr_next i_mnemonic].
    apply is_name_mnemonic in H. destruct H as [m H]. rewrite (str_to_mnemonic_name m name H). exact H.
  - rewrite (C name H H0). reflexivity.
  - intro N. inversion M as [E1 K|E1 K|E1 K|name Hn E1 K|N1 N2 N3 N4 K]; try reflexivity.
    exfalso. eauto.
Qed.

(** the 56 names are distinct and denote distinct mnemonics *)
Theorem C02_names_distinct : forall m1 m2 n1 n2,
  mnemonic_name m1 = Some n1 -> mnemonic_name m2 = Some n2 -> (n1 = n2 <-> m1 = m2).
Proof.
  intros m1 m2 n1 n2 H1 H2. split; intro E; subst.
  - eapply mnemonic_name_inj; eauto.
  - congruence.
Qed.

Theorem C02_fifty_six : List.length all_mnemonics = 56%nat /\ NoDup all_mnemonics /\
  forall m, (exists n, mnemonic_name m = Some n) <-> In m all_mnemonics.
Proof.
  split; [reflexivity|]. split.
  - unfold all_mnemonics. repeat (constructor; [cbn; intuition discriminate|]). constructor.
  - intro m. split; [intros [n H]; eapply mnemonic_in; eauto|].
    unfold all_mnemonics. cbn. intro H.
    repeat (destruct H as [<-|H]; [eexists; reflexivity|]). destruct H.
Qed.

Example C02_example :
  lex 0 (T "lDa #1") init_token init_instruction =
    Ret (3, mkTok TOKEN_INSTRUCTION (T "LDA") 0 None (Some 0%nat),
         mkInstr LDA LDA_BITFIELD 0 0) /\
  ident (T "lDa") /\ (List.length (T "lDa") <= 63)%nat /\ delimited (T " #1") /\ is_name "LDA".
Proof.
  split; [reflexivity|]. split.
  - apply identb_ok. reflexivity.
  - split; [cbn; lia|]. split; [left; left; reflexivity|].
    apply is_name_mnemonic. exists LDA. reflexivity.
Qed.

(** Proof_Diag.v -- on lines of the documented grammar the machine of Proof_Core does what
    the specification Spec_Diag says. *)
From Verif Require Import Base Proof_Base Model_Opcode Model_Error Model_Lexer Model_SymbolTable
  Model_Parser Model_ForwardRef Model_Generator Spec_Isa Spec_Text Spec_Asm Spec_Link
  Proof_Opcode Proof_Chars Proof_Lex1 Proof_Lex2 Proof_Core Proof_Parse Proof_Sim1 Prop_Table
  Proof_Sim2 Proof_Modes Spec_Diag.

Local Notation encode_operand := (Spec_Asm.encode_operand AsBuilt).
Local Notation diag_instr := (Spec_Diag.diag_instr AsBuilt).
Local Notation diag_stmt := (Spec_Diag.diag_stmt AsBuilt).
Local Notation complete := (Spec_Diag.complete AsBuilt).

(** ** Files *)
Lemma fputc_mod : forall b b' f, b mod 256 = b' mod 256 -> fputc b f = fputc b' f.
Proof. intros b b' f H. unfold fputc. rewrite H. reflexivity. Qed.

Definition same_byte (a b : Z) : Prop := a mod 256 = b mod 256.

Lemma write_at_same : forall bs bs' f pc, Forall2 same_byte bs bs' -> write_at f pc bs = write_at f pc bs'.
Proof.
  intros bs bs' f pc H. unfold write_at. generalize (fseek f pc) as g. induction H; intro g; [reflexivity|].
  cbn [fold_left]. rewrite (fputc_mod _ _ _ H). apply IHForall2.
Qed.

(** what the program writes when it reads an instruction: for an open operand, first one
    zero byte for each byte of the instruction where the file stands, then the
    instruction with a zero operand *)
Definition file_step (f : OFile) (p : placed) : OFile :=
  let it := pl_item p in
  match pl_bytes p with
  | Some bs => write_at f (it_addr it) (it_opcode it :: bs)
  | None => write_at (fold_left (fun f b => fputc b f) (zeros (it_size it)) f) (it_addr it)
                     (it_opcode it :: zeros (it_size it - 1))
  end.
Definition file_of (l : list placed) : OFile := fold_left file_step l (mkOFile [] 0).

(** ** The relation.  [located n p]: the operand label of line [n] stands at offset [p] *)
Section Located.
Variable located : Z -> nat -> Prop.

Record ref_at (p : placed) (r : ForwardRef) : Prop := {
  rf_label : it_expr (pl_item p) = Some (Lab (fr_label r));
  rf_pc : fr_pc r = it_addr (pl_item p);
  rf_line : fr_line_num r = pl_line p;
  rf_name : mnemonic_name (i_mnemonic (fr_instr r)) = Some (it_name (pl_item p));
  rf_flag : i_bitflag (fr_instr r) = flag_of (it_mode (pl_item p));
  rf_opcode : same_byte (opcode_of (i_mnemonic (fr_instr r)) (flag_of (it_mode (pl_item p))))
                        (it_opcode (pl_item p));
  rf_kind : is_branch (i_mnemonic (fr_instr r)) || is_jump (i_mnemonic (fr_instr r)) = true;
  rf_mode : it_mode (pl_item p) =
            if is_branch (i_mnemonic (fr_instr r)) then REL else it_mode (pl_item p);
  rf_wide : is_branch (i_mnemonic (fr_instr r)) = false -> wide (it_mode (pl_item p)) = true;
  rf_place : located (pl_line p) (fr_operand_location r) }.

Record DAt (n : Z) (st : dstate) (c : core) : Prop := {
  r_env : c_env c = d_env st;
  r_pc : c_pc c = d_addr st;
  r_line : c_line c = n;
  r_total : c_total c = total_size (d_done st);
  r_refs : Forall2 ref_at (filter is_open (d_done st)) (c_refs c);
  r_file : c_file c = file_of (d_done st) }.

Lemma DAt_init : DAt 1 (mkD 0 [] []) core_init.
Proof. constructor; try reflexivity. constructor. Qed.

Lemma total_size_app : forall a b, total_size (a ++ b) = total_size a + total_size b.
Proof. induction a; intro b; cbn [total_size app fold_right] in *; [reflexivity|]. unfold total_size in *. rewrite IHa. lia. Qed.

Lemma file_of_app : forall l p, file_of (l ++ [p]) = file_step (file_of l) p.
Proof. intros. unfold file_of. rewrite fold_left_app. reflexivity. Qed.

(** ** Operand bytes *)
Lemma land_255 : forall v, Z.land v 255 = v mod 256.
Proof. intro v. change 255 with (Z.ones 8). rewrite Z.land_ones by lia. reflexivity. Qed.

Lemma branch_offset_spec : forall pc v,
  branch_offset pc v = let d := v - (pc + 2) in
    if (-128 <=? d) && (d <=? 127) then Some (d mod 256) else None.
Proof.
  intros pc v. unfold branch_offset. replace (v - pc - 2) with (v - (pc + 2)) by lia.
  set (d := v - (pc + 2)). cbn zeta. rewrite (Z.land_comm 255), land_255.
  destruct (Z.ltb_spec d (-128)), (Z.leb_spec (-128) d); try lia; cbn [orb andb]; auto.
  destruct (Z.ltb_spec 127 d), (Z.leb_spec d 127); try lia; auto.
Qed.

Lemma emit_known : forall n st c M m md op size bytes bs b x,
  DAt n st c -> mnemonic_name M = Some m ->
  bytes = code_bytes M (flag_of md) b -> Forall2 same_byte bytes (op :: bs) ->
  zlen bytes = size -> x = mkItem (d_addr st) m md op size (it_expr x) ->
  DAt (n + 1) (mkD (d_addr st + size) (d_env st) (d_done st ++ [mkPlaced n x (Some bs)])) (c_emit c bytes).
Proof.
  intros n st c M m md op size bytes bs b x [E P L Tt R F] Hm Hb Hs Hz Hx.
  assert (it_size x = size) as Sx by (rewrite Hx; reflexivity).
  assert (it_addr x = d_addr st) as Ax by (rewrite Hx; reflexivity).
  assert (it_opcode x = op) as Ox by (rewrite Hx; reflexivity).
  constructor; cbn [c_emit c_env c_pc c_line c_total c_refs c_file d_env d_addr d_done].
  - exact E.
  - lia.
  - lia.
  - rewrite total_size_app. unfold total_size at 2. cbn [fold_right pl_item]. lia.
  - rewrite filter_app. cbn [filter is_open pl_bytes]. rewrite app_nil_r. exact R.
  - rewrite file_of_app. unfold file_step. cbn [pl_item pl_bytes]. rewrite F, P, Ax, Ox.
    apply write_at_same. exact Hs.
Qed.

Lemma same_byte_refl : forall b, same_byte b b.
Proof. reflexivity. Qed.

Lemma same_byte_lo : forall v, same_byte (Z.land v 255) (lo v).
Proof. intro v. unfold same_byte, lo. rewrite land_255. reflexivity. Qed.

Lemma same_byte_hi : forall v, same_byte (Z.shiftr v 8) (hi v).
Proof. intro v. unfold same_byte, hi. rewrite Z.shiftr_div_pow2 by lia. change (2 ^ 8) with 256. rewrite Z.mod_mod by lia. reflexivity. Qed.

(** ** The modes of operands *)
Lemma denoted_some_wide : forall m o v md, denoted_mode m o v = Some md -> narrow md = true ->
  operand_expr o = None.
Proof.
  intros m o v md H N. unfold denoted_mode in H.
  destruct (is_branch_name m); [destruct o; try discriminate; injection H as <-; discriminate|].
  destruct (is_jump_name m); [destruct o; try discriminate; injection H as <-; discriminate|].
  destruct o; auto; exfalso; destruct v as [v|]; try discriminate; unfold by_size in H;
    try (destruct (v <=? 255)); try (destruct (255 <? v)); try discriminate; injection H as <-; discriminate.
Qed.

Lemma denoted_rel : forall m o v, denoted_mode m o v = Some REL -> is_branch_name m = true /\ exists e, o = ODir e.
Proof.
  intros m o v H. unfold denoted_mode in H.
  destruct (is_branch_name m); [split; [reflexivity|]; destruct o; try discriminate; eauto|].
  exfalso. destruct (is_jump_name m); [destruct o; discriminate|].
  destruct o; try discriminate; try (destruct v as [v|]; try discriminate); unfold by_size in H;
    try (destruct (v <=? 255)); try (destruct (255 <? v)); try discriminate;
    destruct (existsb _ _) in H; discriminate.
Qed.

Lemma denoted_branch : forall m o v md, is_branch_name m = true -> denoted_mode m o v = Some md ->
  md = REL /\ exists e, o = ODir e.
Proof. intros m o v md B H. unfold denoted_mode in H. rewrite B in H. destruct o; try discriminate. injection H as <-. eauto. Qed.

Lemma denoted_jump : forall m o v md, is_branch_name m = false -> is_jump_name m = true ->
  denoted_mode m o v = Some md -> wide md = true /\ md <> REL.
Proof.
  intros m o v md B J H. unfold denoted_mode in H. rewrite B, J in H.
  destruct o; try discriminate; injection H as <-; split; (reflexivity || discriminate).
Qed.

Lemma no_expr_mode : forall m o v md, operand_expr o = None -> denoted_mode m o v = Some md -> narrow md = true.
Proof.
  intros m o v md E H. unfold denoted_mode in H.
  destruct (is_branch_name m); [destruct o; discriminate|].
  destruct (is_jump_name m); [destruct o; discriminate|].
  destruct o; try discriminate; injection H as <-; [|reflexivity]. match goal with |- context [if ?b then _ else _] => destruct b end; reflexivity.
Qed.

(** ** One instruction *)
Lemma instr_at : forall (at_ : place -> option nat) b toks n st c M m o op, DAt n st c -> mnemonic_name M = Some m -> at_ Nowhere = None ->
  match operand_token o with
  | None => op = None
  | Some t => exists i, op = Some (i, t) /\
      (forall l, t = TLabel l -> tok_pos toks i = at_ AtOperand /\
         exists p, at_ AtOperand = Some p /\ located n p)
  end ->
  match diag_instr n st m o with
  | inl st' => exists c', instr_step b toks M op (flags_op o) c = CNext c' /\ DAt (n + 1) st' c'
  | inr (msg, w) => instr_step b toks M op (flags_op o) c = CErr msg (at_ w)
  end.
Proof.
  intros at_ b toks n st c M m o op HR HM HN HOp. pose proof HR as [E P L Tt R F].
  destruct (branch_name M m HM) as [HB HJ].
  unfold Spec_Diag.diag_instr, unresolved, value_of.
  destruct (operand_expr o) as [e|] eqn:Eo.
  - assert (operand_token o = Some (tok_expr e)) as Et by (destruct o; cbn in *; congruence).
    rewrite Et in HOp. destruct HOp as (i & -> & HPos).
    destruct e as [v|l]; cbn [tok_expr eval instr_step] in *.
    + (* a number *)
      cbn [andb]. rewrite (flag_known_mode M m o (Num v) v HM Eo).
      destruct (denoted_mode m o (Some v)) as [md|] eqn:Ed; [|rewrite HN; reflexivity].
      destruct (has_mode AsBuilt m md _) as [[opc size]|] eqn:El.
      2:{ cbn [flag_of_choice]. rewrite El, HN. reflexivity. }
      destruct (choice_listed _ _ _ _ _ El) as [Ef Nf]. rewrite Ef.
      destruct (Z.eqb_spec (flag_of md) 0) as [K|_]; [contradiction|].
      destruct (has_mode_bytes _ _ _ _ _ _ El) as [Es Eop].
      assert (Nw : narrow md = false).
      { destruct (narrow md) eqn:K; [|reflexivity]. rewrite (denoted_some_wide _ _ _ _ Ed K) in Eo. discriminate. }
      rewrite Nw in Es.
      assert (exists bs, encode_operand (d_env st) (mkItem (d_addr st) m md opc size (Some (Num v))) = Some bs /\
              Forall2 same_byte (code_bytes M (flag_of md) (Some v)) (opc :: bs) /\
              zlen (code_bytes M (flag_of md) (Some v)) = size) as (bs & -> & Hs & Hz).
      { unfold code_bytes. rewrite absolute_flag_mode.
        unfold Spec_Asm.encode_operand; cbn [it_expr it_mode eval].
        destruct md; cbn [wide narrow] in *; try discriminate;
          try (eexists; split; [reflexivity|]; split; [constructor; [exact (opcode_of_mode _ _ _ _ _ _ HM El)|repeat constructor; auto using same_byte_lo, same_byte_hi]|cbn; lia]).
        destruct (Z.leb_spec v 255) as [K|K]; (eexists; split; [reflexivity|]; split;
          [constructor; [exact (opcode_of_mode _ _ _ _ _ _ HM El)|]; constructor; [|constructor]
          |cbn; lia]); [|apply same_byte_lo].
        unfold same_byte. rewrite land_255, Z.mod_mod by lia. reflexivity. }
      eexists. split; [reflexivity|]. eapply emit_known; eauto.
    + (* a label *)
      rewrite E. destruct (lookup (d_env st) l) as [v|] eqn:Lk.
      * cbn [andb]. rewrite (flag_known_mode M m o (Lab l) v HM Eo).
        destruct (denoted_mode m o (Some v)) as [md|] eqn:Ed; [|rewrite HN; reflexivity].
        destruct (has_mode AsBuilt m md _) as [[opc size]|] eqn:El.
        2:{ cbn [flag_of_choice]. rewrite El, HN. reflexivity. }
        destruct (choice_listed _ _ _ _ _ El) as [Ef Nf]. rewrite Ef.
        destruct (Z.eqb_spec (flag_of md) 0) as [K|_]; [contradiction|].
        destruct (has_mode_bytes _ _ _ _ _ _ El) as [Es Eop].
        assert (Nw : narrow md = false).
        { destruct (narrow md) eqn:K; [|reflexivity]. rewrite (denoted_some_wide _ _ _ _ Ed K) in Eo. discriminate. }
        rewrite Nw in Es. rewrite HB.
        destruct (is_branch_name m) eqn:B.
        -- destruct (denoted_branch _ _ _ _ B Ed) as [-> _]. cbn [wide] in Es.
           unfold Spec_Asm.encode_operand; cbn [it_expr it_mode it_addr eval]. rewrite Lk.
           rewrite branch_offset_spec, P. cbn zeta.
           destruct ((-128 <=? v - (d_addr st + 2)) && (v - (d_addr st + 2) <=? 127)).
           ++ eexists. split; [reflexivity|].
              assert (Hs : Forall2 same_byte (code_bytes M (flag_of REL) (Some ((v - (d_addr st + 2)) mod 256)))
                             [opc; (v - (d_addr st + 2)) mod 256]).
              { unfold code_bytes. rewrite absolute_flag_mode. cbn [wide].
                constructor; [exact (opcode_of_mode _ _ _ _ _ _ HM El)|]. constructor; [|constructor].
                unfold same_byte. rewrite land_255, !Z.mod_mod by lia. reflexivity. }
              assert (Hz : zlen (code_bytes M (flag_of REL) (Some ((v - (d_addr st + 2)) mod 256))) = size).
              { unfold code_bytes. rewrite absolute_flag_mode. cbn. lia. }
              eapply emit_known; eauto.
           ++ destruct (HPos l eq_refl) as (-> & _). reflexivity.
        -- assert (exists bs, encode_operand (d_env st) (mkItem (d_addr st) m md opc size (Some (Lab l))) = Some bs /\
              Forall2 same_byte (code_bytes M (flag_of md) (Some v)) (opc :: bs) /\
              zlen (code_bytes M (flag_of md) (Some v)) = size) as (bs & -> & Hs & Hz).
           { unfold code_bytes. rewrite absolute_flag_mode.
             unfold Spec_Asm.encode_operand; cbn [it_expr it_mode eval]. rewrite Lk.
             destruct md; cbn [wide narrow] in *; try discriminate;
               try (eexists; split; [reflexivity|]; split; [constructor; [exact (opcode_of_mode _ _ _ _ _ _ HM El)|repeat constructor; auto using same_byte_lo, same_byte_hi]|cbn; lia]).
             exfalso. destruct (denoted_rel _ _ _ Ed) as (B' & _). congruence. }
           eexists. split; [reflexivity|]. eapply emit_known; eauto.
      * (* not yet defined *)
        rewrite HB, HJ. destruct (HPos l eq_refl) as (Hpos & p & Hp & Hloc).
        destruct (is_branch_name m || is_jump_name m) eqn:BJ; cbn [negb andb].
        2:{ rewrite Hpos. reflexivity. }
        assert (is_branch M || is_jump M = true) as BJ' by (rewrite HB, HJ; exact BJ).
        rewrite (flag_forward_mode M m o l HM Eo BJ').
        destruct (denoted_mode m o None) as [md|] eqn:Ed; [|rewrite HN; reflexivity].
        destruct (has_mode AsBuilt m md _) as [[opc size]|] eqn:El.
        2:{ cbn [flag_of_choice]. rewrite El, HN. reflexivity. }
        destruct (choice_listed _ _ _ _ _ El) as [Ef Nf]. rewrite Ef.
        destruct (Z.eqb_spec (flag_of md) 0) as [K|_]; [contradiction|].
        destruct (has_mode_bytes _ _ _ _ _ _ El) as [Es Eop].
        assert (Hw : wide md = negb (is_branch_name m) /\ narrow md = false /\ (is_branch_name m = true -> md = REL)).
        { destruct (is_branch_name m) eqn:B.
          - destruct (denoted_branch _ _ _ _ B Ed) as [-> _]. auto.
          - cbn in BJ. destruct (denoted_jump _ _ _ _ B BJ Ed) as [W _]. rewrite W. split; [reflexivity|].
            split; [destruct md; try discriminate; reflexivity|discriminate]. }
        destruct Hw as (Hw & Hn & Hrel). rewrite Hn, Hw in Es.
        eexists. split; [reflexivity|].
        assert (Zc : zlen (code_bytes M (flag_of md) (Some 0)) = size).
        { unfold code_bytes. rewrite absolute_flag_mode, Hw. destruct (is_branch_name m); cbn in *; lia. }
        constructor; cbn [c_emit c_env c_pc c_line c_total c_refs c_file d_env d_addr d_done].
        -- reflexivity || exact E.
        -- lia.
        -- lia.
        -- rewrite total_size_app. unfold total_size at 2. cbn [fold_right pl_item it_size]. lia.
        -- rewrite filter_app. cbn [filter is_open pl_bytes]. apply Forall2_app; [exact R|]. constructor; [|constructor].
           constructor; cbn [pl_item pl_line it_expr it_addr it_name it_mode it_opcode it_size fr_label fr_pc fr_line_num fr_instr i_mnemonic i_bitflag fr_operand_location]; auto.
           ++ exact (opcode_of_mode _ _ _ _ _ _ HM El).
           ++ rewrite HB. destruct (is_branch_name m); auto.
           ++ rewrite HB, Hw. intros ->. reflexivity.
           ++ rewrite Hpos, Hp. exact Hloc.
        -- rewrite file_of_app. unfold file_step. cbn [pl_item pl_bytes it_addr it_opcode it_size].
           rewrite P, F. unfold code_bytes. rewrite absolute_flag_mode, Hw, Es.
           pose proof (opcode_of_mode _ _ _ _ _ _ HM El) as Ho.
           destruct (is_branch_name m); apply write_at_same; (constructor; [exact Ho|]); repeat constructor.
  - (* no expression *)
    cbn [andb].
    assert (Hflag : exists fl, fl = flag_of_choice m false (denoted_mode m o None) /\
      instr_step b toks M op (flags_op o) c =
      if fl =? 0 then CErr "illegal addressing mode" None else CNext (c_emit c (code_bytes M fl None))).
    { destruct o; cbn in Eo; try discriminate; cbn [operand_token] in HOp.
      - subst op. exists (flag_none M). split; [apply flag_none_mode, HM|reflexivity].
      - destruct HOp as (i & -> & _). exists (flag_known M true false (flags_op OAcc)).
        split; [apply flag_acc_mode, HM|reflexivity]. }
    destruct Hflag as (fl & Hfl & ->).
    destruct (denoted_mode m o None) as [md|] eqn:Ed; [|subst fl; rewrite HN; reflexivity].
    destruct (has_mode AsBuilt m md _) as [[opc size]|] eqn:El.
    2:{ subst fl. cbn [flag_of_choice]. rewrite El, HN. reflexivity. }
    destruct (choice_listed _ _ _ _ _ El) as [Ef Nf]. rewrite Hfl, Ef.
    destruct (Z.eqb_spec (flag_of md) 0) as [K|_]; [contradiction|].
    destruct (has_mode_bytes _ _ _ _ _ _ El) as [Es Eop].
    rewrite (no_expr_mode _ _ _ _ Eo Ed) in Es. cbn [Spec_Asm.encode_operand it_expr].
    eexists. split; [reflexivity|]. eapply emit_known; eauto.
    unfold code_bytes. constructor; [exact (opcode_of_mode _ _ _ _ _ _ HM El)|constructor].
Qed.

(** ** One line *)
Lemma map_cons_inv : forall A B (f : A -> B) l y ys, map f l = y :: ys ->
  exists x xs, l = x :: xs /\ f x = y /\ map f xs = ys.
Proof. intros A B f [|x xs] y ys H; cbn in H; [discriminate|]. injection H as <- <-. eauto. Qed.

Lemma filter_none : forall l, (forall t, In t (map fst l) -> match t with TLabel _ => False | _ => True end) ->
  filter is_label l = [].
Proof.
  induction l as [|[t p] l IH]; intro H; [reflexivity|]. cbn [filter is_label fst].
  pose proof (H t (or_introl eq_refl)). destruct t; try contradiction; apply IH; intros u Hu; apply H; right; exact Hu.
Qed.

Lemma operand_place : forall toks lab m l o n i, map fst toks = lab_toks lab ++ TMnemonic m :: l ->
  Operand l o -> operand_token o = Some (TLabel n) ->
  (exists op, find_op 1 (tl (map fst toks)) = op /\ op = Some (i, TLabel n)) ->
  tok_pos toks i = place_offset toks AtOperand /\ exists p, place_offset toks AtOperand = Some p.
Proof.
  intros toks lab m l o n i Hm Ho Ht (op & Hf & ->).
  assert (exists k, i = (List.length (lab_toks lab) + 1 + k)%nat /\ nth_error l k = Some (TLabel n) /\
          forall j t, nth_error l j = Some t -> j <> k -> match t with TLabel _ => False | _ => True end) as (k & Hi & Hk & Hother).
  { rewrite Hm in Hf.
    assert (Hf2 : find_op (List.length (lab_toks lab) + 1) l = Some (i, TLabel n)).
    { destruct lab; cbn in Hf |- *; exact Hf. }
    pose proof (Operand_find _ _ Ho (List.length (lab_toks lab) + 1)%nat) as F. rewrite Ht in F.
    destruct F as (k & F & Nk). rewrite F in Hf2. injection Hf2 as <-.
    exists k. split; [reflexivity|]. split; [exact Nk|].
    destruct Ho as [| |t e He|t e He|t e He|t e He|t e He|t e He|t e He]; cbn in Ht; try discriminate;
      destruct He; cbn in Ht; try discriminate; injection Ht as ->;
      intros j t Hj Njk;
      (destruct k as [|[|[|[|[|k]]]]]; cbn in Nk; try discriminate;
       destruct j as [|[|[|[|[|j]]]]]; cbn in Hj; try (injection Hj as <-; first [exact I|lia]);
       try discriminate; try (destruct j; discriminate)). all: destruct k; discriminate. }
  assert (exists front p back, toks = front ++ (TLabel n, p) :: back /\ List.length front = i /\ filter is_label back = []) as (front & p & back & E & Lf & Fb).
  { pose proof (nth_error_split l k Hk) as (l1 & l2 & El & Ll).
    rewrite El in Hm. rewrite app_comm_cons, app_assoc in Hm.
    apply map_eq_app in Hm. destruct Hm as (a & b & -> & Ha & Hb).
    apply map_cons_inv in Hb. destruct Hb as ([t p] & back & -> & Ht0 & Hback). cbn in Ht0. subst t.
    exists a, p, back. split; [reflexivity|]. split.
    - rewrite <- (map_length fst a), Ha, app_length. cbn [List.length]. lia.
    - apply filter_none. rewrite Hback. intros t Hin. apply In_nth_error in Hin. destruct Hin as (j & Hj).
      apply (Hother (S k + j)%nat t); [|lia].
      rewrite El. rewrite nth_error_app2 by lia. replace (S k + j - List.length l1)%nat with (S j) by lia. exact Hj. }
  subst toks. unfold tok_pos, place_offset. rewrite nth_error_app2 by lia. rewrite Lf, Nat.sub_diag. cbn [nth_error option_map snd].
  rewrite filter_app. cbn [filter is_label fst]. rewrite Fb, rev_app_distr. cbn. eauto.
Qed.

Lemma define_at : forall n st c l v, DAt n st c -> DAt n (d_define st l v) (c_define c l v).
Proof. intros n st c l v [E P L Tt R F]. constructor; cbn; auto. congruence. Qed.

Lemma next_line_at : forall n st c, DAt n st c -> DAt (n + 1) st (c_next_line c).
Proof. intros n st c [E P L Tt R F]. constructor; cbn; auto. lia. Qed.

Lemma first_label : forall (toks : list (tok * nat)) n ts, map fst toks = TLabel n :: ts ->
  tok_pos toks 0 = place_offset toks AtLabel.
Proof. intros toks n ts H. apply map_cons_inv in H. destruct H as ([t p] & xs & -> & Ht & _). cbn in Ht. subst t. reflexivity. Qed.

Lemma second_label : forall (toks : list (tok * nat)) n ts, map fst toks = TDirective DDefine :: TLabel n :: ts ->
  tok_pos toks 1 = place_offset toks AtLabel.
Proof.
  intros toks n ts H. apply map_cons_inv in H. destruct H as ([t p] & xs & -> & Ht & H). cbn in Ht. subst t.
  apply map_cons_inv in H. destruct H as ([t p2] & ys & -> & Ht & H). cbn in Ht. subst t. reflexivity.
Qed.

(** ** The end *)
Fixpoint patch_file (e : env) (l : list placed) (f : OFile) : OFile :=
  match l with
  | [] => f
  | p :: l' =>
    match pl_bytes p, encode_operand e (pl_item p) with
    | None, Some bs => patch_file e l' (write_at f (it_addr (pl_item p)) (it_opcode (pl_item p) :: bs))
    | _, _ => patch_file e l' f
    end
  end.

Lemma finish_at : forall e done refs f, Forall2 ref_at (filter is_open done) refs ->
  match complete e done with
  | inl code => finish e refs f = FDone (patch_file e done f)
  | inr (n, msg) => exists r f', finish e refs f = FErr msg r f' /\ fr_line_num r = n /\ located n (fr_operand_location r)
  end.
Proof.
  intros e. induction done as [|p done IH]; intros refs f H; cbn [filter is_open Spec_Diag.complete patch_file] in *.
  - inversion H; subst. reflexivity.
  - unfold is_open in H. destruct (pl_bytes p) as [bs|] eqn:Eb.
    + specialize (IH refs f H). destruct (complete e done) as [code|[n msg]]; exact IH.
    + inversion H as [|? r ? refs' HP H']; subst. destruct HP as [Hl Hp Hn Hnm Hfl Hli Hk Hmd Hw Hpl].
      cbn [finish]. unfold Spec_Asm.encode_operand. rewrite Hl. cbn [eval].
      destruct (lookup e (fr_label r)) as [v|].
      2:{ exists r, f. rewrite Hn. auto. }
      destruct (is_branch (i_mnemonic (fr_instr r))) eqn:B.
      * rewrite Hmd. rewrite branch_offset_spec, Hp. cbn zeta.
        destruct ((-128 <=? v - (it_addr (pl_item p) + 2)) && (v - (it_addr (pl_item p) + 2) <=? 127)).
        -- rewrite Hfl, (write_at_same _ [it_opcode (pl_item p); (v - (it_addr (pl_item p) + 2)) mod 256]) by
             (constructor; [exact Hli|repeat constructor]).
           specialize (IH refs' (write_at f (it_addr (pl_item p)) [it_opcode (pl_item p); (v - (it_addr (pl_item p) + 2)) mod 256]) H').
           destruct (complete e done) as [code|[n msg]]; exact IH.
        -- exists r, f. rewrite Hn. auto.
      * specialize (Hw eq_refl).
        assert (Ee : (match it_mode (pl_item p) with
                 | REL => let d := v - (it_addr (pl_item p) + 2) in
                          if (-128 <=? d) && (d <=? 127) then Some [d mod 256] else None
                 | ABS | ABSX | ABSY | IND => Some [lo v; hi v]
                 | _ => Some [lo v]
                 end) = Some [lo v; hi v]) by (destruct (it_mode (pl_item p)); try discriminate; reflexivity).
        cbv zeta in Ee |- *. rewrite Ee, Hfl, Hp.
        rewrite (write_at_same _ [it_opcode (pl_item p); lo v; hi v]) by
          (constructor; [exact Hli|repeat constructor; auto using same_byte_lo, same_byte_hi]).
        specialize (IH refs' (write_at f (it_addr (pl_item p)) [it_opcode (pl_item p); lo v; hi v]) H').
        destruct (complete e done) as [code|[n msg]]; exact IH.
Qed.
End Located.

(** ** In a list of lines of the documented grammar *)
Definition located_in (lines : list text) (n : Z) (p : nat) : Prop :=
  exists line toks, nth_error lines (Z.to_nat (n - 1)) = Some line /\ Lexes literal16 true 0 line toks /\
    place_offset toks AtOperand = Some p.

Definition ref_for (lines : list text) : placed -> ForwardRef -> Prop := ref_at (located_in lines).
Definition DRel (lines : list text) : Z -> dstate -> core -> Prop := DAt (located_in lines).

Lemma DRel_init : forall lines, DRel lines 1 (mkD 0 [] []) core_init.
Proof. intro lines. apply DAt_init. Qed.

Lemma define_rel : forall lines n st c l v, DRel lines n st c -> DRel lines n (d_define st l v) (c_define c l v).
Proof. intro lines. apply define_at. Qed.

Lemma next_line_rel : forall lines n st c, DRel lines n st c -> DRel lines (n + 1) st (c_next_line c).
Proof. intro lines. apply next_line_at. Qed.

Section Lines.
Variable lines : list text.
Local Notation ref_for := (ref_for lines).
Local Notation DRel := (DRel lines).

Theorem line_diag : forall b line toks n st c s, DRel n st c ->
  nth_error lines (Z.to_nat (n - 1)) = Some line -> Lexes literal16 true 0 line toks ->
  Line (map fst toks) s ->
  match s with
  | SEnd => line_step b toks c = CFinish c
  | _ =>
    match diag_stmt n st s with
    | inl st' => exists c', line_step b toks c = CNext c' /\ DRel (n + 1) st' c'
    | inr (msg, w) => line_step b toks c = CErr msg (place_offset toks w)
    end
  end.
Proof.
  intros b line toks n st c s HR Hline Hlex HL. pose proof HR as [E P L Tt R F].
  destruct s as [|l|l v|v| |lab m o].
  - destruct (Line_compile_other _ _ HL) as (cs & C & ->). unfold line_step. rewrite C. cbn [Spec_Diag.diag_stmt].
    eexists. split; [reflexivity|]. apply next_line_rel, HR.
  - destruct (Line_compile_other _ _ HL) as (cs & C & ->). unfold line_step. rewrite C, E. cbn [Spec_Diag.diag_stmt].
    destruct (lookup (d_env st) l).
    + f_equal. inversion HL; subst. eapply first_label; eauto.
    + eexists. split; [reflexivity|]. rewrite P. apply next_line_rel, define_rel, HR.
  - destruct (Line_compile_other _ _ HL) as (cs & C & Hc). unfold line_step. rewrite C. cbn [Spec_Diag.diag_stmt].
    assert (exists i, cs = CConst l i v /\ tok_pos toks i = place_offset toks AtLabel) as (i & -> & Hi).
    { inversion HL as [| | | |? ? Hx|? ? Hx|? ? Hx| | |]; subst; rewrite <- Hx in C; cbn in C; injection C as <-;
        eexists; (split; [reflexivity|]); symmetry in Hx.
      - eapply first_label; eauto.
      - eapply first_label; eauto.
      - eapply second_label; eauto. }
    rewrite E. destruct (lookup (d_env st) l).
    + f_equal. exact Hi.
    + eexists. split; [reflexivity|]. apply next_line_rel, define_rel, HR.
  - destruct (Line_compile_other _ _ HL) as (cs & C & ->). unfold line_step. rewrite C. cbn [Spec_Diag.diag_stmt].
    eexists. split; [reflexivity|]. constructor; cbn; auto. lia.
  - destruct (Line_compile_other _ _ HL) as (cs & C & ->). unfold line_step. rewrite C. reflexivity.
  - destruct (Line_compile_instr _ _ _ _ HL) as (op & C & HOp).
    destruct (Line_instr_inv _ _ _ _ HL) as (l & Hts & Ho).
    assert (is_name m) as Nm.
    { apply (Lexes_named _ _ _ _ _ Hlex). rewrite Hts. apply in_or_app. right; left; reflexivity. }
    apply is_name_mnemonic in Nm. destruct Nm as (M & HM).
    assert (HOp2 : match operand_token o with
      | None => op = None
      | Some t => exists i, op = Some (i, t) /\
          (forall l, t = TLabel l -> tok_pos toks i = place_offset toks AtOperand /\
             exists p, place_offset toks AtOperand = Some p /\ located_in lines n p)
      end).
    { destruct (operand_token o) as [t|] eqn:Et; [|exact HOp]. destruct HOp as (i & -> & Hi).
      exists i. split; [reflexivity|]. intros l0 ->.
      destruct (compile_instr _ _ _ _ _ C) as (_ & Hf & _).
      destruct (operand_place toks lab m l o l0 i Hts Ho Et) as [A (p & B)]; [eauto|].
      split; [exact A|]. exists p. split; [exact B|]. exists line, toks. auto. }
    unfold line_step. rewrite C. rewrite (str_to_mnemonic_name M m HM).
    destruct lab as [l1|]; cbn [Spec_Diag.diag_stmt].
    + rewrite E. destruct (lookup (d_env st) l1).
      * f_equal. cbn in Hts. eapply first_label; eauto.
      * rewrite P. apply instr_at; auto. apply define_rel, HR.
    + apply instr_at; auto.
Qed.


Lemma finish_complete : forall e done refs f, Forall2 ref_for (filter is_open done) refs ->
  match complete e done with
  | inl code => finish e refs f = FDone (patch_file e done f)
  | inr (n, msg) => exists r f' line toks, finish e refs f = FErr msg r f' /\ fr_line_num r = n /\
      nth_error lines (Z.to_nat (n - 1)) = Some line /\ Lexes literal16 true 0 line toks /\
      place_offset toks AtOperand = Some (fr_operand_location r)
  end.
Proof.
  intros e done refs f H. pose proof (finish_at _ e done refs f H) as K. destruct (complete e done) as [code|[n msg]]; [exact K|].
  destruct K as (r & f' & K1 & K2 & line & toks & K3). exists r, f', line, toks. tauto.
Qed.
End Lines.

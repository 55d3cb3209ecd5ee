(** Proof_Seen.v -- the contents the output file has during a run (Model_Io) when no call fails. *)
From Verif Require Import Base Proof_Base Model_Opcode Model_Error Model_Lexer Model_SymbolTable
  Model_Parser Model_ForwardRef Model_Generator Model_Main Model_Io Proof_Io Proof_Image.

Definition put (c : Z) (w : IoFile) : IoFile := snd (fputc_io no_fault c w).
Definition puts (bs : list Z) (w : IoFile) : IoFile := fold_left (fun w b => put b w) bs w.
Definition seek (p : Z) (w : IoFile) : IoFile := snd (fseek_io no_fault p w).

(** [s] is a content on the way from [d] to [d'] *)
Definition between (d s d' : list Z) : Prop :=
  (List.length d <= List.length s <= List.length d')%nat /\
  forall a, nth a s 0 = nth a d 0 \/ nth a s 0 = 0 \/ nth a s 0 = nth a d' 0.

(** all new contents lie on the way *)
Definition grew (w w' : IoFile) : Prop :=
  exists new, io_seen w' = new ++ io_seen w /\
    Forall (fun s => between (of_data (io_file w)) s (of_data (io_file w'))) new.

Definition data (w : IoFile) : list Z := of_data (io_file w).
Definition at_ (w : IoFile) (a : nat) : Z := nth a (data w) 0.

Lemma put_spec : forall c w, 0 <= of_pos (io_file w) ->
  of_pos (io_file (put c w)) = of_pos (io_file w) + 1 /\
  io_seen (put c w) = data (put c w) :: io_seen w /\
  (List.length (data (put c w)) = Nat.max (List.length (data w)) (S (Z.to_nat (of_pos (io_file w)))))%nat /\
  forall a, at_ (put c w) a = if (a =? Z.to_nat (of_pos (io_file w)))%nat then c mod 256 else at_ w a.
Proof.
  intros c w H. unfold put, fputc_io, no_fault, at_, data, fputc. cbn. repeat split.
  - apply write_byte_length.
  - intro a. apply write_byte_nth.
Qed.

Lemma puts_spec : forall bs w, 0 <= of_pos (io_file w) ->
  of_pos (io_file (puts bs w)) = of_pos (io_file w) + Z.of_nat (List.length bs) /\
  (List.length (data w) <= List.length (data (puts bs w)))%nat /\
  (forall a, (a < Z.to_nat (of_pos (io_file w)))%nat -> at_ (puts bs w) a = at_ w a) /\
  (forall a, at_ (puts bs w) a = at_ w a \/ In (at_ (puts bs w) a) (map (fun b => b mod 256) bs)) /\
  exists new, io_seen (puts bs w) = new ++ io_seen w /\
    Forall (fun s => (List.length (data w) <= List.length s <= List.length (data (puts bs w)))%nat /\
      forall a, nth a s 0 = at_ w a \/ nth a s 0 = at_ (puts bs w) a) new.
Proof.
  induction bs as [|b bs IH]; intros w H.
  - cbn [puts fold_left List.length]. split; [lia|]. split; [lia|]. split; [reflexivity|]. split; [left; reflexivity|]. exists []. split; [reflexivity|constructor].
  - cbn [puts fold_left]. fold (puts bs (put b w)). destruct (put_spec b w H) as (P1 & P2 & P3 & P4).
    destruct (IH (put b w)) as (I1 & I2 & I3 & I4 & new & I5 & I6); [lia|].
    split; [rewrite I1, P1; cbn [List.length]; lia|]. split; [lia|]. split.
    { intros a Ha. rewrite I3 by lia. rewrite P4. destruct (Nat.eqb_spec a (Z.to_nat (of_pos (io_file w)))); [lia|reflexivity]. }
    split.
    { intro a. cbn [map]. destruct (I4 a) as [E|E]; [|right; right; exact E]. rewrite E, P4.
      destruct (Nat.eqb_spec a (Z.to_nat (of_pos (io_file w)))); [right; left; reflexivity|left; reflexivity]. }
    exists (new ++ [data (put b w)]). split; [rewrite I5, P2, <- app_assoc; reflexivity|].
    assert (Hd : forall a, at_ (put b w) a = at_ w a \/ at_ (put b w) a = at_ (puts bs (put b w)) a).
    { intro a. rewrite P4. destruct (Nat.eqb_spec a (Z.to_nat (of_pos (io_file w)))) as [-> |N]; [|left; reflexivity].
      right. rewrite I3 by lia. rewrite P4, Nat.eqb_refl. reflexivity. }
    apply Forall_app. split.
    + eapply Forall_impl; [|exact I6]. cbn beta. intros s [L S]. split; [lia|]. intro a. destruct (S a) as [E|E]; [|right; exact E].
      rewrite E. apply Hd.
    + constructor; [|constructor]. split; [lia|]. exact Hd.
Qed.

(** what one line, or one forward reference, does to the file: zeros where the file stands, then the code at [p] *)
Definition emits (p : Z) (bs : list Z) (w w' : IoFile) : Prop :=
  exists z, Forall (fun b => b = 0) z /\ w' = puts bs (seek p (puts z w)).

Lemma emits_grew : forall p bs w w', emits p bs w w' -> 0 <= of_pos (io_file w) -> 0 <= p -> grew w w' /\ 0 <= of_pos (io_file w').
Proof.
  intros p bs w w' (z & Z0 & E) H Hp.
  destruct (puts_spec z w H) as (A1 & A2 & A3 & A4 & n1 & A5 & A6).
  set (w1 := puts z w) in *. set (w2 := seek p w1) in *.
  assert (D2 : data w2 = data w1) by reflexivity. assert (P2 : of_pos (io_file w2) = p) by reflexivity.
  assert (S2 : io_seen w2 = data w1 :: io_seen w1) by reflexivity.
  destruct (puts_spec bs w2) as (B1 & B2 & B3 & B4 & n2 & B5 & B6); [lia|]. rewrite <- E in *.
  assert (Zw : forall a, at_ w1 a = at_ w a \/ at_ w1 a = 0).
  { intro a. destruct (A4 a) as [K|K]; [left; exact K|right]. apply in_map_iff in K. destruct K as (b & <- & Hb).
    rewrite Forall_forall in Z0. rewrite (Z0 b Hb). reflexivity. }
  assert (E2 : forall a, at_ w2 a = at_ w1 a) by (intro; unfold at_; rewrite D2; reflexivity).
  split; [|lia]. exists (n2 ++ data w1 :: n1). split; [rewrite B5, S2, A5, <- app_assoc; reflexivity|].
  rewrite D2 in *. apply Forall_app. split; [|constructor].
  - eapply Forall_impl; [|exact B6]. cbn beta. intros s [L S]. split; [unfold data in *; lia|]. intro a.
    destruct (S a) as [K|K]; [|right; right; exact K]. rewrite E2 in K. destruct (Zw a) as [J|J]; rewrite J in K; [left; exact K|right; left; exact K].
  - split; [unfold data in *; lia|]. intro a. destruct (Zw a) as [J|J]; [left; exact J|right; left; exact J].
  - eapply Forall_impl; [|exact A6]. cbn beta. intros s [L S]. split; [unfold data in *; lia|]. intro a.
    destruct (S a) as [K|K]; [left; exact K|]. destruct (Zw a) as [J|J]; rewrite J in K; [left; exact K|right; left; exact K].
Qed.

Lemma grew_refl : forall w, grew w w.
Proof. intro w. exists []. split; [reflexivity|constructor]. Qed.

(** ** One line *)
Definition MP {A} (P : A -> Prop) (x : M A) : Prop := match x with Ret a => P a | _ => True end.

Lemma MP_bind : forall A B (P : B -> Prop) (x : M A) k, (forall a, x = Ret a -> MP P (k a)) -> MP P (bind x k).
Proof. intros A B P [a| |] k H; cbn; auto. Qed.

Lemma generate_emits : forall w i o pc, match generate_code_io no_fault w i o pc with
  (n, w', _) => exists bs, w' = puts bs (seek pc w) /\ n = Z.of_nat (List.length bs) /\ 1 <= n end.
Proof.
  intros w i o pc. unfold generate_code_io. cbn [fseek_io fputc_io no_fault].
  destruct o as [t|]; [|eexists [_]; split; [reflexivity|]; split; [reflexivity|unfold ONE_BYTE; lia]].
  destruct (ty_eqb (tk_type t) TOKEN_ACCUMULATOR); [eexists [_]; split; [reflexivity|]; split; [reflexivity|unfold ONE_BYTE; lia]|].
  destruct (negb _).
  - eexists [_; _; _]. split; [reflexivity|]. split; [reflexivity|unfold THREE_BYTES; lia].
  - eexists [_; _]. split; [reflexivity|]. split; [reflexivity|unfold TWO_BYTES; lia].
Qed.

Definition line_emits (pc total : Z) (w : IoFile) (r : LineIo) : Prop :=
  match r with
  | NextIo s => si_io s = w \/ exists p bs, emits p bs w (si_io s) /\ bs <> [] /\
      st_total (si_st s) = total + Z.of_nat (List.length bs) /\ st_pc (si_st s) = p + Z.of_nat (List.length bs)
  | FinishIo s => si_io s = w
  | AbortIo _ => True
  end.

Lemma int_of_ret : forall z y, int_of z = Ret y -> y = z.
Proof. intros z y H. unfold int_of in H. destruct (in_range INT_MIN z INT_MAX); [injection H; auto|discriminate]. Qed.

Lemma instruction_emits : forall env b st w, MP (line_emits (st_pc st) (st_total st) w) (process_instruction_io no_fault env b st w).
Proof.
  intros env b st w. unfold process_instruction_io. apply MP_bind. intros operand _. apply MP_bind. intros [[os l1] out1] _.
  destruct (IS_ERROR os); [exact I|]. apply MP_bind. intros [[rc i2] out2] _.
  set (written1 := if os =? BRANCH_FORWARD_REFERENCE then 2 else if os =? JUMP_FORWARD_REFERENCE then 3 else st_written st).
  apply MP_bind. intros pending Ep. destruct pending as [[u w2]|]; [|exact I].
  assert (Z2 : exists z, Forall (fun b => b = 0) z /\ w2 = puts z w).
  { destruct (rc =? FORWARD_REFERENCE).
    - destruct operand as [k|]; [|discriminate]. destruct (get (lx_seq l1) k) as [tok| |]; cbn [bind] in Ep; try discriminate.
      destruct (create_forward_ref _ _ _ _ _ _ _) as [[ref|]| |]; cbn [bind] in Ep; try discriminate.
      destruct (add_forward_ref _ _ _) as [[code u']| |]; cbn [bind] in Ep; try discriminate.
      destruct (IS_ERROR code); [discriminate|]. cbn [fputc_io no_fault] in Ep. injection Ep as _ <-.
      destruct (written1 =? 3).
      + exists [0; 0; 0]. split; [repeat constructor|reflexivity].
      + exists [0; 0]. split; [repeat constructor|reflexivity].
    - destruct (IS_ERROR rc); [discriminate|]. injection Ep as _ <-. exists []. split; [constructor|reflexivity]. }
  destruct Z2 as (z & Z0 & Ez). apply MP_bind. intros [[[[n w3] l3] i3] out3] Eg.
  assert (G : IS_ERROR n = false -> exists bs, w3 = puts bs (seek (st_pc st) w2) /\ n = Z.of_nat (List.length bs) /\ 1 <= n).
  { intro NE. destruct ((os =? BRANCH_OPERAND) || (os =? JUMP_OPERAND)).
    - unfold resolve_label_ref_io in Eg. destruct operand as [k|].
      2:{ unfold plain_error in Eg. destruct (print_error _ _ _ _ _); cbn in Eg; try discriminate. injection Eg as <- _ _ _ _. discriminate. }
      destruct (get (lx_seq l1) k) as [tok| |]; cbn [bind] in Eg; try discriminate.
      destruct (search_symbol _ _) as [dest| |]; cbn [bind] in Eg; try discriminate.
      assert (Gen : forall t1 l, (let '(n0, w1, instr1) := generate_code_io no_fault w2 i2 (Some t1) (st_pc st) in Ret (n0, w1, l, instr1, @nil ascii)) = Ret (n, w3, l3, i3, out3) ->
        exists bs, w3 = puts bs (seek (st_pc st) w2) /\ n = Z.of_nat (List.length bs) /\ 1 <= n).
      { intros t1 l E. pose proof (generate_emits w2 i2 (Some t1) (st_pc st)) as K. destruct (generate_code_io _ _ _ _ _) as [[n0 w0] j0]. injection E as <- <- _ _ _. exact K. }
      destruct (os =? BRANCH_OPERAND).
      + destruct (calc_branch_offset _ _) as [off| |]; cbn [bind] in Eg; try discriminate.
        destruct (off =? ERROR_TOO_BIG_OFFSET).
        * destruct (print_error _ _ _ _ _); cbn in Eg; try discriminate. injection Eg as <- _ _ _ _. discriminate.
        * destruct (set_value_at _ _ _) as [lx| |]; cbn [bind] in Eg; try discriminate.
          destruct (get _ _) as [t1| |]; cbn [bind] in Eg; try discriminate. eapply Gen; eauto.
      + destruct (os =? JUMP_OPERAND).
        * destruct (set_value_at _ _ _) as [lx| |]; cbn [bind] in Eg; try discriminate.
          destruct (get _ _) as [t1| |]; cbn [bind] in Eg; try discriminate. eapply Gen; eauto.
        * unfold plain_error in Eg. destruct (print_error _ _ _ _ _); cbn in Eg; try discriminate. injection Eg as <- _ _ _ _. discriminate.
    - match type of Eg with bind ?x _ = _ => destruct x as [ot| |] end; cbn [bind] in Eg; try discriminate.
      pose proof (generate_emits w2 i2 ot (st_pc st)) as K. destruct (generate_code_io _ _ _ _ _) as [[n0 w0] j0]. injection Eg as <- <- _ _ _. exact K. }
  destruct (IS_ERROR n); [exact I|]. destruct (G eq_refl) as (bs & Eb & En & N1).
  apply MP_bind. intros ln _. apply MP_bind. intros pc Hpc. apply MP_bind. intros tot Ht. apply int_of_ret in Hpc, Ht. cbn.
  right. exists (st_pc st), bs. split; [exists z; split; [exact Z0|rewrite Eb, Ez; reflexivity]|]. split; [intros ->; cbn in En; lia|]. subst. auto.
Qed.

Lemma line_seen : forall env b s, MP (line_emits (st_pc (si_st s)) (st_total (si_st s)) (si_io s)) (process_line_io no_fault env b s).
Proof.
  intros env b [st w]. unfold process_line_io. cbn [si_st si_io].
  apply MP_bind. intros [[[[rc l1] t1] i1] o1] _. destruct (IS_ERROR rc); [exact I|].
  apply MP_bind. intros [[rc2 l2] o2] _. destruct (IS_ERROR rc2); [exact I|]. apply MP_bind. intros first _.
  assert (Rest : forall lx tab pc o, MP (line_emits (st_pc st) (st_total st) w)
    (let st' := mkSt tab (st_unresolved st) pc (st_line_num st) (st_written st) (st_total st) (st_out st) lx t1 i1 (st_stdout st ++ o) in
     match i_mnemonic i1 with
     | NULL_MNEMONIC =>
          line_num <- int_of (st_line_num st' + 1) ;;
          Ret (NextIo (mkStIo (mkSt (st_symtab st') (st_unresolved st') (st_pc st') line_num
                                    (st_written st') (st_total st') (st_out st') (st_lexer st')
                                    (st_tk st') (st_instr st') (st_stdout st')) w))
     | _ => process_instruction_io no_fault env b st' w
     end)).
  { intros lx tab pc o. cbn zeta.
    destruct (i_mnemonic i1); try (apply (instruction_emits env b (mkSt tab (st_unresolved st) pc (st_line_num st) (st_written st) (st_total st) (st_out st) lx t1 i1 (st_stdout st ++ o)) w)).
    apply MP_bind. intros n _. cbn. left. reflexivity. }
  destruct (tk_type first); try (apply Rest).
  - apply MP_bind. intros [[[c l3] s3] o3] _. destruct (IS_ERROR c); [exact I|]. apply Rest.
  - apply MP_bind. intros [[[c l3] s3] o3] _. destruct (IS_ERROR c); [exact I|]. apply Rest.
  - reflexivity.
Qed.

(** ** One forward reference *)
Lemma forward_emits : forall w ref lx dest, MP (fun '(n, w', _) => IS_ERROR n = false -> exists bs, emits (fr_pc ref) bs w w')
  (resolve_forward_ref_io no_fault w ref lx dest).
Proof.
  intros w ref lx dest. unfold resolve_forward_ref_io. cbn [fseek_io fputc_io no_fault].
  destruct (fr_operand_status ref =? BRANCH_FORWARD_REFERENCE).
  - apply MP_bind. intros off _. destruct (off =? ERROR_TOO_BIG_OFFSET).
    + apply MP_bind. intros out _. cbn. discriminate.
    + destruct (negb _).
      * cbn [MP]. intros _. eexists [_; _]. exists []. split; [constructor|reflexivity].
      * unfold plain_error. apply MP_bind. intros [[c l] out] H. destruct (print_error _ _ _ _ _); cbn in H; try discriminate. injection H as <- _ _. cbn. discriminate.
  - destruct (fr_operand_status ref =? JUMP_FORWARD_REFERENCE).
    + destruct (negb _).
      * cbn [MP]. intros _. eexists [_; _; _]. exists []. split; [constructor|reflexivity].
      * unfold plain_error. apply MP_bind. intros [[c l] out] H. destruct (print_error _ _ _ _ _); cbn in H; try discriminate. injection H as <- _ _. cbn. discriminate.
    + unfold plain_error. apply MP_bind. intros [[c l] out] H. destruct (print_error _ _ _ _ _); cbn in H; try discriminate. injection H as <- _ _. cbn. discriminate.
Qed.

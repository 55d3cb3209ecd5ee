(** Proof_Image.v -- the output file is the image of the writes; when these do not
    disturb each other, it is the image of the code. *)
From Verif Require Import Base Proof_Base Model_Generator Spec_Isa Spec_Text Spec_Asm Proof_Core Proof_Sim2 Proof_Modes
  Spec_Diag Proof_Diag Proof_Ref.

Local Notation encode_operand := (Spec_Asm.encode_operand AsBuilt).
Local Notation pass1_stmt := (Spec_Asm.pass1_stmt AsBuilt).
Local Notation monotone_from := (Spec_Asm.monotone_from AsBuilt).
Local Notation diag_instr := (Spec_Diag.diag_instr AsBuilt).
Local Notation diag_stmt := (Spec_Diag.diag_stmt AsBuilt).
Local Notation complete := (Spec_Diag.complete AsBuilt).
Local Notation diag_from := (Spec_Diag.diag_from AsBuilt).
Local Notation d_close := (Spec_Diag.d_close AsBuilt).
Local Notation last_writes := (Spec_Diag.last_writes AsBuilt).
Local Notation writes := (Spec_Diag.writes AsBuilt).
Local Notation sound_placed := (Proof_Ref.sound_placed AsBuilt).

(** ** Bytes of a file *)
Definition fget (data : list Z) (a : Z) : Z := nth (Z.to_nat a) data 0.

Lemma write_byte_length : forall p d b, List.length (write_byte d p b) = Nat.max (List.length d) (S p).
Proof. induction p as [|p IH]; intros [|x d] b; cbn [write_byte List.length]; try lia; rewrite IH; cbn [List.length]; lia. Qed.

Lemma write_byte_nth : forall p d b i, nth i (write_byte d p b) 0 = if (i =? p)%nat then b else nth i d 0.
Proof.
  induction p as [|p IH]; intros [|x d] b [|i]; cbn [write_byte nth Nat.eqb]; try reflexivity.
  - destruct i; reflexivity.
  - rewrite IH. destruct (i =? p)%nat; [reflexivity|]. destruct i; reflexivity.
  - apply IH.
Qed.

Definition fputs (bs : list Z) (f : OFile) : OFile := fold_left (fun f b => fputc b f) bs f.

Definition is_byte (b : Z) : Prop := 0 <= b < 256.

Lemma fputs_spec : forall bs f, 0 <= of_pos f -> Forall is_byte bs ->
  of_pos (fputs bs f) = of_pos f + zlen bs /\
  zlen (of_data (fputs bs f)) = (if bs then zlen (of_data f) else Z.max (zlen (of_data f)) (of_pos f + zlen bs)) /\
  forall a, 0 <= a -> fget (of_data (fputs bs f)) a =
    if (of_pos f <=? a) && (a <? of_pos f + zlen bs) then nth (Z.to_nat (a - of_pos f)) bs 0 else fget (of_data f) a.
Proof.
  induction bs as [|b bs IH]; intros f Hp Hb.
  - cbn [fputs fold_left]. unfold zlen at 1 3. cbn [List.length]. split; [lia|]. split; [reflexivity|].
    intros a Ha. destruct (Z.leb_spec (of_pos f) a), (Z.ltb_spec a (of_pos f + zlen (@nil Z))); cbn [andb]; try reflexivity.
    unfold zlen in *; cbn [List.length] in *; lia.
  - inversion Hb as [|? ? Hb0 Hb']; subst. cbn [fputs fold_left]. fold (fputs bs (fputc b f)).
    destruct (IH (fputc b f)) as (A & B & C); [cbn; lia|exact Hb'|].
    assert (zlen (b :: bs) = 1 + zlen bs) as Zl by (unfold zlen; cbn [List.length]; lia).
    assert (zlen (of_data (fputc b f)) = Z.max (zlen (of_data f)) (of_pos f + 1)) as Zf.
    { unfold fputc, zlen. cbn [of_data]. rewrite write_byte_length. lia. }
    change (of_pos (fputc b f)) with (of_pos f + 1) in *.
    split; [lia|]. split.
    + rewrite B. pose proof (zlen_pos _ bs). destruct bs as [|b' bs]; [rewrite Zf, Zl; change (zlen (@nil Z)) with 0; lia|]. lia.
    + intros a Ha. rewrite C by exact Ha.
      assert (fget (of_data (fputc b f)) a = if a =? of_pos f then b else fget (of_data f) a) as Ef.
      { unfold fputc, fget. cbn [of_data]. rewrite write_byte_nth. rewrite Z.mod_small by exact Hb0.
        destruct (Nat.eqb_spec (Z.to_nat a) (Z.to_nat (of_pos f))), (Z.eqb_spec a (of_pos f)); try reflexivity; lia. }
      rewrite Ef. pose proof (zlen_pos _ bs).
      destruct (Z.leb_spec (of_pos f + 1) a), (Z.leb_spec (of_pos f) a), (Z.ltb_spec a (of_pos f + 1 + zlen bs)),
        (Z.ltb_spec a (of_pos f + zlen (b :: bs))), (Z.eqb_spec a (of_pos f)); cbn [andb]; try lia; try reflexivity.
      * replace (Z.to_nat (a - of_pos f)) with (S (Z.to_nat (a - (of_pos f + 1)))) by lia. reflexivity.
      * replace (Z.to_nat (a - of_pos f)) with 0%nat by lia. reflexivity.
Qed.

(** ** Sequences of writes *)
Definition do_write (f : OFile) (w : Z * list Z) : OFile := write_at f (fst w) (snd w).
Definition do_writes (ws : list (Z * list Z)) (f : OFile) : OFile := fold_left do_write ws f.

Definition good_piece (w : Z * list Z) : Prop := 0 <= fst w /\ snd w <> [] /\ Forall is_byte (snd w).

Definition value (l : list (Z * list Z)) (a : Z) : Z := match byte_at l a with Some b => b | None => 0 end.

Lemma byte_at_app : forall l1 l2 a, byte_at (l1 ++ l2) a =
  match byte_at l2 a with Some b => Some b | None => byte_at l1 a end.
Proof.
  induction l1 as [|[p bs] l1 IH]; intros l2 a; cbn [app byte_at].
  - destruct (byte_at l2 a); reflexivity.
  - rewrite IH. destruct (byte_at l2 a); reflexivity.
Qed.

Lemma image_end_app : forall l1 l2, image_end (l1 ++ l2) = Z.max (image_end l1) (image_end l2).
Proof.
  induction l1 as [|[p bs] l1 IH]; intro l2; cbn [app image_end].
  - induction l2 as [|[p bs] l2 IH]; cbn [image_end]; lia.
  - rewrite IH. lia.
Qed.

Lemma image_end_pos : forall l, 0 <= image_end l.
Proof. induction l as [|[p bs] l IH]; cbn [image_end]; lia. Qed.

Lemma do_writes_spec : forall ws, Forall good_piece ws ->
  zlen (of_data (do_writes ws (mkOFile [] 0))) = image_end ws /\
  forall a, 0 <= a -> fget (of_data (do_writes ws (mkOFile [] 0))) a = value ws a.
Proof.
  intro ws. induction ws as [|w ws IH] using rev_ind; intro H.
  - split; [reflexivity|]. intros a _. unfold fget, value. cbn. destruct (Z.to_nat a); reflexivity.
  - apply Forall_app in H. destruct H as [H1 H2]. inversion H2 as [|? ? (G1 & G2 & G3) _]; subst.
    destruct (IH H1) as [A B]. unfold do_writes in *. rewrite fold_left_app. cbn [fold_left].
    set (f := fold_left do_write ws (mkOFile [] 0)) in *. unfold do_write, write_at.
    fold (fputs (snd w) (fseek f (fst w))).
    destruct (fputs_spec (snd w) (fseek f (fst w)) G1 G3) as (P1 & P2 & P3).
    change (of_pos (fseek f (fst w))) with (fst w) in *. change (of_data (fseek f (fst w))) with (of_data f) in *.
    destruct w as [p bs]. cbn [fst snd] in *.
    split.
    + rewrite P2, A, image_end_app. cbn [image_end]. pose proof (image_end_pos ws). fold (zlen bs).
      destruct bs; [congruence|]. unfold zlen in *. lia.
    + intros a Ha. rewrite P3 by exact Ha. rewrite B by exact Ha. unfold value. rewrite byte_at_app. cbn [byte_at].
      fold (zlen bs). destruct ((p <=? a) && (a <? p + zlen bs)) eqn:E; [|reflexivity].
      apply andb_true_iff in E. destruct E as [E1 E2]. apply Z.leb_le in E1. apply Z.ltb_lt in E2.
      rewrite (nth_error_nth' bs 0); [reflexivity|]. unfold zlen in E2. lia.
Qed.

Theorem writes_image : forall ws, Forall good_piece ws -> is_image ws (of_data (do_writes ws (mkOFile [] 0))).
Proof.
  intros ws H. destruct (do_writes_spec ws H) as [A B]. split; [exact A|].
  intros a Ha. specialize (B a (proj1 Ha)). unfold fget in B. fold (value ws a). rewrite <- B.
  apply nth_error_nth'. unfold zlen in A. lia.
Qed.

(** ** The file of a program *)
Definition good_placed (p : placed) : Prop :=
  0 <= it_addr (pl_item p) /\ 1 <= it_size (pl_item p) /\ is_byte (it_opcode (pl_item p)) /\
  match pl_bytes p with Some bs => Forall is_byte bs /\ it_size (pl_item p) = 1 + zlen bs | None => 2 <= it_size (pl_item p) end.

Lemma fputs_seek : forall bs f, fputs bs f = write_at f (of_pos f) bs.
Proof. intros bs [d p]. reflexivity. Qed.

Lemma zeros_byte : forall n, Forall is_byte (zeros n).
Proof. intro n. apply Forall_forall. intros x H. apply repeat_spec in H. subst. split; [lia|reflexivity]. Qed.

Lemma zlen_zeros : forall n, 0 <= n -> zlen (zeros n) = n.
Proof. intros n H. unfold zlen, zeros. rewrite repeat_length. lia. Qed.

Lemma zlen_cons : forall A (x : A) l, zlen (x :: l) = 1 + zlen l.
Proof. intros. unfold zlen. cbn [List.length]. lia. Qed.

Lemma write_at_pos : forall bs f pc, 0 <= pc -> Forall is_byte bs -> of_pos (write_at f pc bs) = pc + zlen bs.
Proof. intros bs f pc H Hb. destruct (fputs_spec bs (fseek f pc) H Hb) as (A & _). exact A. Qed.

Lemma first_writes_file : forall l f, Forall good_placed l ->
  fold_left file_step l f = do_writes (first_writes (of_pos f) l) f.
Proof.
  induction l as [|p l IH]; intros f H; [reflexivity|]. inversion H as [|? ? (G1 & G2 & G3 & G4) H']; subst.
  cbn [fold_left first_writes]. unfold do_writes. rewrite fold_left_app. fold (do_writes (first_writes (pl_end p) l)).
  unfold file_step at 2. destruct (pl_bytes p) as [bs|].
  - cbn [fold_left]. unfold do_write at 1. cbn [fst snd]. rewrite IH by exact H'.
    rewrite write_at_pos; [|exact G1|constructor; tauto]. rewrite zlen_cons. unfold pl_end.
    replace (it_addr (pl_item p) + (1 + zlen bs)) with (it_addr (pl_item p) + it_size (pl_item p)) by lia. reflexivity.
  - cbn [fold_left]. unfold do_write at 1 2. cbn [fst snd].
    fold (fputs (zeros (it_size (pl_item p))) f). rewrite fputs_seek. rewrite IH by exact H'.
    rewrite write_at_pos; [|exact G1|constructor; [exact G3|apply zeros_byte]].
    rewrite zlen_cons, zlen_zeros by lia. unfold pl_end.
    replace (it_addr (pl_item p) + (1 + (it_size (pl_item p) - 1))) with (it_addr (pl_item p) + it_size (pl_item p)) by lia.
    reflexivity.
Qed.

Lemma last_writes_file : forall e l f, patch_file e l f = do_writes (last_writes e l) f.
Proof.
  intros e. induction l as [|p l IH]; intro f; [reflexivity|]. cbn [patch_file Spec_Diag.last_writes].
  destruct (pl_bytes p); [exact (IH f)|]. destruct (encode_operand e (pl_item p)); [|exact (IH f)].
  unfold do_writes. cbn [app fold_left]. apply IH.
Qed.

Lemma encode_bytes : forall e it bs, encode_operand e it = Some bs ->
  (forall v, it_expr it = Some (Num v) -> 0 <= v) -> Forall is_byte bs.
Proof.
  intros e it bs H N. unfold Spec_Asm.encode_operand in H. unfold is_byte.
  destruct (it_expr it) as [x|]; [|injection H as <-; constructor].
  destruct (eval e x) as [v|] eqn:Ev; [|discriminate].
  assert (0 <= lo v < 256) by (apply Z.mod_pos_bound; lia).
  assert (0 <= hi v < 256) by (apply Z.mod_pos_bound; lia).
  assert (forall d, 0 <= d mod 256 < 256) by (intro; apply Z.mod_pos_bound; lia).
  destruct (it_mode it); try (injection H as <-; repeat constructor; lia).
  destruct x as [w|l].
  - destruct (Z.leb_spec v 255); [|injection H as <-; repeat constructor; lia].
    injection H as <-. cbn in Ev. injection Ev as ->.
    specialize (N v eq_refl). repeat constructor; lia.
  - cbv zeta in H. destruct (_ && _); [|discriminate]. injection H as <-. repeat constructor; apply H2.
Qed.

(** ** Undisturbed programs *)
Definition covers (p : placed) (a : Z) : Prop := it_addr (pl_item p) <= a < pl_end p.
Definition covered (l : list placed) (a : Z) : Prop := exists p, In p l /\ covers p a.

(** the zero bytes written for the forward references of [l] *)
Fixpoint scratch (pos : Z) (l : list placed) (a : Z) : Prop :=
  match l with
  | [] => False
  | p :: l' => (is_open p = true /\ pos <= a < pos + it_size (pl_item p)) \/ scratch (pl_end p) l' a
  end.

Fixpoint undisturbed (l : list placed) : Prop :=
  match l with
  | [] => True
  | p :: l' =>
    (forall a, covers p a -> ~ scratch (pl_end p) l' a) /\
    (is_open p = true -> forall a, covers p a -> ~ covered l' a) /\
    undisturbed l'
  end.

(** code pieces of the instructions of [l] *)
Fixpoint code_of (e : env) (l : list placed) : list (Z * list Z) :=
  match l with
  | [] => []
  | p :: l' =>
    match (match pl_bytes p with Some bs => Some bs | None => encode_operand e (pl_item p) end) with
    | Some bs => (it_addr (pl_item p), it_opcode (pl_item p) :: bs)
    | None => (it_addr (pl_item p), [])
    end :: code_of e l'
  end.

Lemma complete_code : forall e l code, complete e l = inl code -> code_of e l = code /\
  Forall (fun p => pl_bytes p = None -> encode_operand e (pl_item p) <> None) l.
Proof.
  intros e. induction l as [|p l IH]; intros code H; cbn [Spec_Diag.complete code_of] in *.
  - injection H as <-. auto.
  - destruct (pl_bytes p) as [bs|] eqn:Eb.
    + destruct (complete e l) as [c|]; [|discriminate]. injection H as <-. destruct (IH c eq_refl) as [-> F].
      split; [reflexivity|]. constructor; [congruence|exact F].
    + destruct (encode_operand e (pl_item p)) as [bs|] eqn:Ee; [|discriminate].
      destruct (complete e l) as [c|]; [|discriminate]. injection H as <-. destruct (IH c eq_refl) as [-> F].
      split; [reflexivity|]. constructor; [congruence|exact F].
Qed.

(** the final operand bytes of [p] *)
Definition final_bytes (e : env) (p : placed) (bs : list Z) : Prop :=
  match pl_bytes p with Some b => b = bs | None => encode_operand e (pl_item p) = Some bs end /\
  it_size (pl_item p) = 1 + zlen bs.

Lemma piece_at : forall p bs a rest, byte_at ((p, bs) :: rest) a =
  match byte_at rest a with
  | Some b => Some b
  | None => if (p <=? a) && (a <? p + zlen bs) then nth_error bs (Z.to_nat (a - p)) else None
  end.
Proof. reflexivity. Qed.

Lemma one_piece : forall p bs a, byte_at [(p, bs)] a = if (p <=? a) && (a <? p + zlen bs) then nth_error bs (Z.to_nat (a - p)) else None.
Proof. reflexivity. Qed.

Lemma one_in : forall p bs a, p <= a < p + zlen bs -> exists b, byte_at [(p, bs)] a = Some b /\ In b bs.
Proof.
  intros p bs a H. rewrite one_piece.
  assert ((p <=? a) && (a <? p + zlen bs) = true) as -> by (apply andb_true_iff; split; [apply Z.leb_le|apply Z.ltb_lt]; lia).
  destruct (nth_error bs (Z.to_nat (a - p))) as [b|] eqn:E.
  - exists b. split; [reflexivity|]. eapply nth_error_In; eauto.
  - apply nth_error_None in E. unfold zlen in H. lia.
Qed.

Lemma one_out : forall p bs a, ~ (p <= a < p + zlen bs) -> byte_at [(p, bs)] a = None.
Proof.
  intros p bs a H. rewrite one_piece.
  destruct (Z.leb_spec p a), (Z.ltb_spec a (p + zlen bs)); cbn [andb]; try reflexivity. lia.
Qed.

Lemma code_uncovered : forall e l a, Forall (fun p => exists bs, final_bytes e p bs) l -> ~ covered l a ->
  byte_at (code_of e l) a = None /\ byte_at (last_writes e l) a = None.
Proof.
  intros e l a H N. induction H as [|p l (bs & Hb & Hs) H IH]; [auto|].
  assert (~ covered l a) as Nl by (intros (q & Hq & C); apply N; exists q; split; [right|]; auto).
  assert (~ covers p a) as Np by (intro C; apply N; exists p; split; [left; reflexivity|exact C]).
  destruct (IH Nl) as [I1 I2]. unfold covers, pl_end in Np. cbn [code_of Spec_Diag.last_writes].
  split.
  - destruct (pl_bytes p) as [b|]; [subst b|rewrite Hb]; rewrite piece_at, I1;
      apply (one_out _ (it_opcode (pl_item p) :: bs)); rewrite zlen_cons; lia.
  - rewrite byte_at_app, I2. destruct (pl_bytes p) as [b|]; [reflexivity|]. rewrite Hb.
    apply one_out. rewrite zlen_cons. lia.
Qed.

Lemma undisturbed_value : forall e l q a, Forall (fun p => exists bs, final_bytes e p bs) l ->
  Forall (fun p => pl_bytes p = None -> 0 <= it_size (pl_item p)) l ->
  undisturbed l ->
  (covered l a -> byte_at (first_writes q l ++ last_writes e l) a = byte_at (code_of e l) a /\ byte_at (code_of e l) a <> None) /\
  (~ covered l a -> forall b, byte_at (first_writes q l ++ last_writes e l) a = Some b -> b = 0 /\ scratch q l a).
Proof.
  intros e l. induction l as [|p l IH]; intros q a Hf Hz Hu.
  - split; [intros (p & [] & _)|]. intros _ b H. discriminate.
  - inversion Hf as [|? ? (bs & Hb & Hs) Hf']; subst. inversion Hz as [|? ? Hz0 Hz']; subst.
    destruct Hu as (U1 & U2 & U3). specialize (IH (pl_end p) a Hf' Hz' U3). destruct IH as [I1 I2].
    set (main := (it_addr (pl_item p), it_opcode (pl_item p) :: bs)).
    assert (Em : byte_at (code_of e (p :: l)) a = match byte_at (code_of e l) a with Some b => Some b | None => byte_at [main] a end).
    { cbn [code_of]. destruct (pl_bytes p) as [b|]; [subst b|rewrite Hb]; reflexivity. }
    set (pre := match pl_bytes p with
      | Some bs => [(it_addr (pl_item p), it_opcode (pl_item p) :: bs)]
      | None => [(q, zeros (it_size (pl_item p))); (it_addr (pl_item p), it_opcode (pl_item p) :: zeros (it_size (pl_item p) - 1))]
      end).
    set (pat := match pl_bytes p with Some _ => [] | None => [main] end).
    assert (Ew : byte_at (first_writes q (p :: l) ++ last_writes e (p :: l)) a =
      match byte_at (last_writes e l) a with Some b => Some b | None =>
      match byte_at pat a with Some b => Some b | None =>
      match byte_at (first_writes (pl_end p) l) a with Some b => Some b | None => byte_at pre a end end end).
    { cbn [first_writes Spec_Diag.last_writes]. fold pre.
      replace (match pl_bytes p with Some _ => [] | None => match encode_operand e (pl_item p) with
         | Some bs0 => [(it_addr (pl_item p), it_opcode (pl_item p) :: bs0)] | None => [] end end) with pat
        by (unfold pat, main; destruct (pl_bytes p); [reflexivity|rewrite Hb; reflexivity]).
      rewrite !byte_at_app. destruct (byte_at (last_writes e l) a); [reflexivity|]. destruct (byte_at pat a); reflexivity. }
    rewrite byte_at_app in I1, I2.
    assert (Inside : covers p a -> exists b, byte_at [main] a = Some b).
    { intros C. unfold covers, pl_end in C. destruct (one_in (it_addr (pl_item p)) (it_opcode (pl_item p) :: bs) a) as (b & E & _).
      - rewrite zlen_cons. lia.
      - exists b. exact E. }
    assert (Outside : ~ covers p a -> byte_at [main] a = None).
    { intros C. apply one_out. rewrite zlen_cons. unfold covers, pl_end in C. lia. }
    assert (Dec : covered l a \/ ~ covered l a).
    { clear. induction l as [|x l [IH|IH]]; [right; intros (p & [] & _)| |].
      - left. destruct IH as (p & Hp & C). exists p. split; [right|]; auto.
      - destruct (Z_le_dec (it_addr (pl_item x)) a) as [A|A], (Z_lt_dec a (pl_end x)) as [B|B];
          [left; exists x; split; [left; reflexivity|split; auto]| | |];
          right; intros (p & [<- |Hp] & C); [destruct C; lia|apply IH; exists p; auto|destruct C; lia|apply IH; exists p; auto|destruct C; lia|apply IH; exists p; auto]. }
    assert (DecP : covers p a \/ ~ covers p a) by (unfold covers; lia).
    split.
    + intros Hc. rewrite Ew, Em. destruct Dec as [Dl|Dl].
      * destruct (I1 Dl) as [I3 I4]. destruct (byte_at (code_of e l) a) as [b|]; [|congruence].
        split; [|discriminate].
        destruct (byte_at (last_writes e l) a) as [b2|]; [exact I3|].
        assert (byte_at pat a = None) as ->.
        { unfold pat. destruct (pl_bytes p) as [b0|] eqn:Eb; [reflexivity|]. apply Outside. intro C.
          apply (U2 ltac:(unfold is_open; rewrite Eb; reflexivity) a C Dl). }
        rewrite I3. reflexivity.
      * assert (covers p a) as C.
        { destruct Hc as (x & [<- |Hx] & C); [exact C|]. exfalso. apply Dl. exists x. auto. }
        destruct (code_uncovered e l a Hf' Dl) as [-> ->]. destruct (Inside C) as (b & Eb). rewrite Eb.
        split; [|discriminate]. unfold pat. destruct (pl_bytes p) as [b0|] eqn:Ep.
        -- cbn [byte_at]. destruct (byte_at (first_writes (pl_end p) l) a) as [b1|] eqn:Ef.
           ++ exfalso. destruct (code_uncovered e l a Hf' Dl) as [_ K]. rewrite K in I2.
              destruct (I2 Dl b1 eq_refl) as [_ Sc]. exact (U1 a C Sc).
           ++ unfold pre. rewrite Hb. exact Eb.
        -- rewrite Eb. reflexivity.
    + intros Hn b. rewrite Ew.
      assert (~ covered l a) as Nl by (intros (x & Hx & C); apply Hn; exists x; split; [right|]; auto).
      assert (~ covers p a) as Np by (intro C; apply Hn; exists p; split; [left; reflexivity|exact C]).
      destruct (code_uncovered e l a Hf' Nl) as [_ K]. rewrite K in *. specialize (I2 Nl).
      assert (byte_at pat a = None) as -> by (unfold pat; destruct (pl_bytes p); [reflexivity|apply Outside; exact Np]).
      destruct (byte_at (first_writes (pl_end p) l) a) as [b1|].
      * intros [= <-]. destruct (I2 b1 eq_refl) as [-> Sc]. split; [reflexivity|]. right; exact Sc.
      * unfold pre. unfold covers, pl_end in Np. cbn [scratch]. unfold is_open. destruct (pl_bytes p) as [b0|] eqn:Ep.
        -- rewrite Hb. rewrite one_out; [discriminate|]. rewrite zlen_cons. lia.
        -- specialize (Hz0 eq_refl). intro E.
           change [(q, zeros (it_size (pl_item p))); (it_addr (pl_item p), it_opcode (pl_item p) :: zeros (it_size (pl_item p) - 1))]
             with ([(q, zeros (it_size (pl_item p)))] ++ [(it_addr (pl_item p), it_opcode (pl_item p) :: zeros (it_size (pl_item p) - 1))]) in E.
           rewrite byte_at_app in E. pose proof (zlen_pos _ bs).
           rewrite (one_out (it_addr (pl_item p))) in E by (rewrite zlen_cons, zlen_zeros by lia; lia).
           destruct (Z_le_dec q a) as [A|A], (Z_lt_dec a (q + it_size (pl_item p))) as [B|B].
           ++ destruct (one_in q (zeros (it_size (pl_item p))) a) as (b' & E' & Hin); [rewrite zlen_zeros by lia; lia|].
              rewrite E in E'. injection E' as ->. apply repeat_spec in Hin. auto.
           ++ rewrite one_out in E; [discriminate|]. rewrite zlen_zeros by lia. lia.
           ++ rewrite one_out in E; [discriminate|]. rewrite zlen_zeros by lia. lia.
           ++ rewrite one_out in E; [discriminate|]. rewrite zlen_zeros by lia. lia.
Qed.

(** ** The length of the file *)
Lemma image_end_le : forall l n, 0 <= n -> (image_end l <= n <-> Forall (fun w => fst w + zlen (snd w) <= n) l).
Proof.
  intros l n Hn. induction l as [|[p bs] l IH]; cbn [image_end]; [split; auto|].
  fold (zlen bs). split; intro H.
  - constructor; [cbn; lia|]. apply IH. lia.
  - inversion H as [|? ? A B]; subst. apply IH in B. cbn in A. lia.
Qed.

Lemma writes_end : forall e l q, Forall (fun p => exists bs, final_bytes e p bs) l ->
  (forall a, scratch q l a -> a < image_end (code_of e l)) ->
  image_end (first_writes q l ++ last_writes e l) = image_end (code_of e l).
Proof.
  intros e l q Hf Hs. apply Z.le_antisymm.
  - set (n := image_end (code_of e l)) in *. assert (0 <= n) as Hn by apply image_end_pos.
    assert (Hc : Forall (fun w => fst w + zlen (snd w) <= n) (code_of e l)) by (apply image_end_le; [exact Hn|unfold n; lia]).
    apply image_end_le; [exact Hn|]. apply Forall_app.
    clearbody n. revert q Hs. induction Hf as [|p l (bs & Hb & Hz) Hf IH]; intros q Hs; [split; constructor|].
    cbn [code_of] in Hc. inversion Hc as [|? ? C1 C2]; subst.
    destruct (IH C2 (pl_end p)) as [I1 I2]; [intros a Ha; apply Hs; right; exact Ha|].
    cbn [first_writes Spec_Diag.last_writes]. split.
    + apply Forall_app. split; [|exact I1]. destruct (pl_bytes p) as [b|] eqn:Ep.
      * constructor; [exact C1|constructor].
      * rewrite Hb in C1. cbn [fst snd] in C1. rewrite zlen_cons in C1. pose proof (zlen_pos _ bs).
        constructor; [|constructor; [|constructor]]; cbn [fst snd].
        -- rewrite zlen_zeros by lia. specialize (Hs (q + it_size (pl_item p) - 1)).
           cbn [scratch] in Hs. unfold is_open in Hs. rewrite Ep in Hs. lia.
        -- rewrite zlen_cons, zlen_zeros by lia. lia.
    + apply Forall_app. split; [|exact I2]. destruct (pl_bytes p) as [b|] eqn:Ep; [constructor|].
      rewrite Hb in *. constructor; [exact C1|constructor].
  - set (n := image_end (first_writes q l ++ last_writes e l)) in *. assert (0 <= n) as Hn by apply image_end_pos.
    assert (Hc : Forall (fun w => fst w + zlen (snd w) <= n) (first_writes q l ++ last_writes e l)) by (apply image_end_le; [exact Hn|unfold n; lia]).
    apply image_end_le; [exact Hn|]. apply Forall_app in Hc. destruct Hc as [Hc1 Hc2].
    clearbody n. clear Hs. revert q Hc1. induction Hf as [|p l (bs & Hb & Hz) Hf IH]; intros q Hc1; [constructor|].
    cbn [first_writes Spec_Diag.last_writes code_of] in *. apply Forall_app in Hc1. destruct Hc1 as [A1 A2].
    apply Forall_app in Hc2. destruct Hc2 as [B1 B2]. constructor; [|eapply IH; eauto].
    destruct (pl_bytes p) as [b|] eqn:Ep.
    + inversion A1; subst. assumption.
    + rewrite Hb in *. inversion B1; subst. assumption.
Qed.

(** ** Good programs *)
Definition good_item (it : item) : Prop :=
  0 <= it_addr it /\ is_byte (it_opcode it) /\
  it_size it = (if narrow (it_mode it) then 1 else if wide (it_mode it) then 3 else 2) /\
  (narrow (it_mode it) = true <-> it_expr it = None) /\
  (forall v, it_expr it = Some (Num v) -> 0 <= v).

Lemma encode_length : forall e it bs, good_item it -> encode_operand e it = Some bs -> it_size it = 1 + zlen bs.
Proof.
  intros e it bs (_ & _ & Hs & Hn & _) H. unfold Spec_Asm.encode_operand in H.
  destruct (it_expr it) as [x|] eqn:Ex.
  - assert (narrow (it_mode it) = false) as Nw.
    { destruct (narrow (it_mode it)); [|reflexivity]. destruct Hn as [Hn _]. discriminate (Hn eq_refl). }
    rewrite Nw in Hs. destruct (eval e x) as [v|]; [|discriminate].
    destruct (it_mode it); cbn [narrow wide] in *; try discriminate; try (injection H as <-; exact Hs).
    destruct x.
    + destruct (v <=? 255); injection H as <-; exact Hs.
    + cbv zeta in H. destruct (_ && _); [|discriminate]. injection H as <-. exact Hs.
  - injection H as <-. destruct Hn as [_ Hn]. rewrite (Hn eq_refl) in Hs. exact Hs.
Qed.

(** the numbers of a statement are not negative *)
Definition expr_ok (x : expr) : Prop := match x with Num v => 0 <= v | Lab _ => True end.
Definition stmt_ok (s : stmt) : Prop :=
  match s with
  | SOrg v => 0 <= v
  | SInstr _ _ o => match operand_expr o with Some x => expr_ok x | None => True end
  | _ => True
  end.

Definition good_d (st : dstate) : Prop :=
  0 <= d_addr st /\ Forall (fun p => good_item (pl_item p)) (d_done st) /\
  Forall (fun p => is_open p = true -> exists l, it_expr (pl_item p) = Some (Lab l)) (d_done st).

Lemma diag_instr_good : forall n st m o st', match operand_expr o with Some x => expr_ok x | None => True end ->
  good_d st -> diag_instr n st m o = inl st' -> good_d st'.
Proof.
  intros n st m o st' Ho (G1 & G2 & G3) H. unfold Spec_Diag.diag_instr in H.
  destruct (_ && _); [discriminate|].
  destruct (denoted_mode m o (value_of (d_env st) o)) as [md|] eqn:Ed; [|discriminate].
  destruct (has_mode AsBuilt m md _) as [[op size]|] eqn:El; [|discriminate].
  destruct (has_mode_bytes _ _ _ _ _ _ El) as [Es Eo].
  assert (GI : good_item (mkItem (d_addr st) m md op size (operand_expr o))).
  { split; [exact G1|]. split; [exact Eo|]. split; [exact Es|]. cbn [it_mode it_expr]. split; [split; intro K|].
    - eapply denoted_some_wide; eauto.
    - eapply no_expr_mode; eauto.
    - intros v E. rewrite E in Ho. exact Ho. }
  assert (0 < size) by (destruct (narrow md), (wide md); lia).
  assert (K : forall b, (b = None -> exists l, operand_expr o = Some (Lab l)) ->
     good_d (mkD (d_addr st + size) (d_env st) (d_done st ++ [mkPlaced n (mkItem (d_addr st) m md op size (operand_expr o)) b]))).
  { intros b Hb. split; [cbn; lia|]. cbn [d_done]. split; apply Forall_app; split; auto; constructor; auto.
    unfold is_open. cbn [pl_bytes pl_item it_expr]. destruct b; [discriminate|auto]. }
  destruct (unresolved (d_env st) o) eqn:U.
  - injection H as <-. apply K. intros _. unfold unresolved in U. destruct (operand_expr o) as [[v|l]|]; try discriminate. eauto.
  - destruct (encode_operand (d_env st) _); [|discriminate]. injection H as <-. apply K. discriminate.
Qed.

Lemma diag_stmt_good : forall n st s st', stmt_ok s -> good_d st -> diag_stmt n st s = inl st' -> good_d st'.
Proof.
  intros n st s st' Hs G H.
  assert (D : forall l v, good_d (d_define st l v)) by (intros; exact G).
  destruct s as [|l|l v|v| |[l|] m o]; cbn [Spec_Diag.diag_stmt] in H.
  - injection H as <-. exact G.
  - destruct (lookup (d_env st) l); [discriminate|]. injection H as <-. apply D.
  - destruct (lookup (d_env st) l); [discriminate|]. injection H as <-. apply D.
  - injection H as <-. destruct G as (_ & G). split; [exact Hs|exact G].
  - injection H as <-. exact G.
  - destruct (lookup (d_env st) l); [discriminate|]. eapply diag_instr_good; [| |exact H]; auto.
  - eapply diag_instr_good; [| |exact H]; auto.
Qed.

Lemma diag_from_good : forall p n st, Forall stmt_ok p -> good_d st ->
  match diag_from n st p with DOk st' _ => good_d st' | DError _ _ _ => True end.
Proof.
  induction p as [|s p IH]; intros n st H G.
  - cbn [Spec_Diag.diag_from]. unfold Spec_Diag.d_close. destruct (complete _ _) as [|[? ?]]; [exact G|exact I].
  - inversion H as [|? ? Hs H']; subst.
    assert (s = SEnd \/ s <> SEnd) as [-> |Ns] by (destruct s; auto; right; discriminate).
    + cbn [Spec_Diag.diag_from]. unfold Spec_Diag.d_close. destruct (complete _ _) as [|[? ?]]; [exact G|exact I].
    + assert (diag_from n st (s :: p) = match diag_stmt n st s with
        | inl st' => diag_from (n + 1) st' p | inr (m, w) => DError n m w end) as -> by (destruct s; try congruence; reflexivity).
      destruct (diag_stmt n st s) as [st1|[m w]] eqn:E; [|exact I]. apply IH; [exact H'|]. eapply diag_stmt_good; eauto.
Qed.

Lemma good_init : good_d (mkD 0 [] []).
Proof. split; [cbn; lia|split; constructor]. Qed.

(** pieces and placed instructions of an accepted program *)
Lemma accepted_good : forall st code, good_d st -> Forall (sound_placed (d_env st)) (d_done st) ->
  complete (d_env st) (d_done st) = inl code ->
  Forall good_placed (d_done st) /\ Forall (fun p => exists bs, final_bytes (d_env st) p bs) (d_done st) /\
  Forall good_piece (writes st) /\ Forall good_piece code /\ code_of (d_env st) (d_done st) = code.
Proof.
  intros st code (G1 & G2 & G3) HS HC. destruct (complete_code _ _ _ HC) as [Ec Hopen].
  assert (A : Forall good_placed (d_done st) /\ Forall (fun p => exists bs, final_bytes (d_env st) p bs /\ Forall is_byte bs) (d_done st)).
  { clear Ec HC G1. set (l := d_done st) in *. clearbody l. induction G2 as [|p l Gp G2 IH]; [split; constructor|].
    inversion HS as [|? ? S1 S2]; subst. inversion Hopen as [|? ? O1 O2]; subst. inversion G3 as [|? ? T1 T2]; subst.
    destruct (IH T2 S2 O2) as [I1 I2]. pose proof Gp as (P1 & P2 & P3 & P4 & P5).
    unfold sound_placed in S1. unfold final_bytes, good_placed, is_open in *.
    destruct (pl_bytes p) as [bs|] eqn:Eb.
    - pose proof (encode_length _ _ _ Gp S1) as L. pose proof (encode_bytes _ _ _ S1 P5) as B. pose proof (zlen_pos _ bs).
      split; constructor; auto.
      + rewrite Eb. repeat split; try apply P2; auto; lia.
      + exists bs. rewrite Eb. auto.
    - destruct (encode_operand (d_env st) (pl_item p)) as [bs|] eqn:Ee; [|exfalso; apply O1; auto].
      pose proof (encode_length _ _ _ Gp Ee) as L. pose proof (encode_bytes _ _ _ Ee P5) as B. pose proof (zlen_pos _ bs).
      split; constructor; auto.
      + rewrite Eb. repeat split; try apply P2; auto; try lia.
        destruct (T1 eq_refl) as (lb & Hl). destruct (narrow (it_mode (pl_item p))) eqn:Nw.
        * destruct P4 as [P4 _]. rewrite (P4 eq_refl) in Hl. discriminate.
        * destruct (wide (it_mode (pl_item p))); lia.
      + exists bs. rewrite Eb. auto. }
  destruct A as [A1 A2]. split; [exact A1|]. split.
  { eapply Forall_impl; [|exact A2]. intros p (bs & H & _). eauto. }
  split; [|split; [|exact Ec]].
  - unfold Spec_Diag.writes. apply Forall_app. split.
    + assert (forall l q, 0 <= q -> Forall good_placed l -> Forall good_piece (first_writes q l)) as K; [|apply K; [lia|exact A1]].
      clear. induction l as [|p l IH]; intros q Hq H; [constructor|]. inversion H as [|? ? (P1 & P2 & P3 & P4) H']; subst.
      cbn [first_writes]. apply Forall_app. split; [|apply IH; [unfold pl_end; lia|exact H']].
      destruct (pl_bytes p) as [bs|].
      * constructor; [|constructor]. split; [exact P1|]. split; [discriminate|]. constructor; tauto.
      * constructor; [|constructor; [|constructor]].
        -- split; [exact Hq|]. split; [|apply zeros_byte]. cbn [snd]. unfold zeros.
           destruct (Z.to_nat (it_size (pl_item p))) eqn:E; [lia|discriminate].
        -- split; [exact P1|]. split; [discriminate|]. constructor; [exact P3|apply zeros_byte].
    + assert (H : Forall (fun p => good_placed p /\ exists bs, final_bytes (d_env st) p bs /\ Forall is_byte bs) (d_done st)).
      { apply Forall_forall. intros p Hp. rewrite Forall_forall in A1, A2. auto. }
      clear - H. induction H as [|p l ((P1 & P2 & P3 & P4) & bs & (F1 & F2) & B) H IH]; [constructor|].
      cbn [Spec_Diag.last_writes]. apply Forall_app. split; [|exact IH]. destruct (pl_bytes p); [constructor|]. rewrite F1.
      constructor; [|constructor]. split; [exact P1|]. split; [discriminate|]. constructor; auto.
  - rewrite <- Ec.
    assert (H : Forall (fun p => good_placed p /\ exists bs, final_bytes (d_env st) p bs /\ Forall is_byte bs) (d_done st)).
    { apply Forall_forall. intros p Hp. rewrite Forall_forall in A1, A2. auto. }
    clear - H. induction H as [|p l ((P1 & P2 & P3 & P4) & bs & (F1 & F2) & B) H IH]; [constructor|].
    cbn [code_of]. constructor; [|exact IH]. destruct (pl_bytes p) as [b|]; [subst b|rewrite F1];
      (split; [exact P1|]; split; [discriminate|]; constructor; auto).
Qed.

(** ** The two theorems about the file *)
Theorem file_writes : forall st code, good_d st -> Forall (sound_placed (d_env st)) (d_done st) ->
  complete (d_env st) (d_done st) = inl code ->
  is_image (writes st) (of_data (patch_file (d_env st) (d_done st) (file_of (d_done st)))).
Proof.
  intros st code G HS HC. destruct (accepted_good _ _ G HS HC) as (A & B & C & D & E).
  rewrite last_writes_file. unfold file_of. rewrite first_writes_file by exact A. cbn [of_pos].
  unfold do_writes. rewrite <- fold_left_app. apply writes_image. exact C.
Qed.

Theorem file_undisturbed : forall st code, good_d st -> Forall (sound_placed (d_env st)) (d_done st) ->
  complete (d_env st) (d_done st) = inl code ->
  undisturbed (d_done st) -> (forall a, scratch 0 (d_done st) a -> a < image_end code) ->
  is_image code (of_data (patch_file (d_env st) (d_done st) (file_of (d_done st)))).
Proof.
  intros st code G HS HC HU HE. destruct (accepted_good _ _ G HS HC) as (A & B & C & D & E).
  destruct (file_writes st code G HS HC) as [F1 F2]. rewrite <- E in HE.
  unfold Spec_Diag.writes in *. rewrite (writes_end _ _ _ B HE) in *. rewrite E in *. split; [exact F1|].
  intros a Ha. rewrite (F2 a Ha). f_equal.
  assert (Z0 : Forall (fun p => pl_bytes p = None -> 0 <= it_size (pl_item p)) (d_done st)).
  { eapply Forall_impl; [|exact A]. intros p (_ & K & _) _. lia. }
  destruct (undisturbed_value (d_env st) (d_done st) 0 a B Z0 HU) as [V1 V2]. rewrite E in V1.
  assert (Dec : covered (d_done st) a \/ ~ covered (d_done st) a).
  { generalize (d_done st) as l. induction l as [|x l [IH|IH]]; [right; intros (p & [] & _)| |].
    - left. destruct IH as (p & Hp & K). exists p. split; [right|]; auto.
    - assert (covers x a \/ ~ covers x a) as [K|K] by (unfold covers; lia).
      + left. exists x. split; [left; reflexivity|exact K].
      + right. intros (p & [<- |Hp] & K2); [exact (K K2)|apply IH; exists p; auto]. }
  destruct Dec as [Dc|Dc].
  - destruct (V1 Dc) as [-> _]. reflexivity.
  - destruct (code_uncovered (d_env st) (d_done st) a B Dc) as [K _]. rewrite E in K. rewrite K.
    destruct (byte_at _ a) as [b|] eqn:Eb; [|reflexivity]. destruct (V2 Dc b eq_refl). assumption.
Qed.

(** ** Origins that do not move backwards *)
Fixpoint sorted (q : Z) (l : list placed) : Prop :=
  match l with
  | [] => True
  | p :: l' => q <= it_addr (pl_item p) /\ sorted (pl_end p) l'
  end.

Lemma sorted_above : forall l q a, Forall good_placed l -> sorted q l ->
  (scratch q l a -> q <= a) /\ (covered l a -> q <= a).
Proof.
  induction l as [|p l IH]; intros q a G S; [split; [intros []|intros (p & [] & _)]|].
  inversion G as [|? ? (P1 & P2 & _) G']; subst. destruct S as [S1 S2].
  destruct (IH (pl_end p) a G' S2) as [I1 I2]. unfold pl_end in *. split.
  - intros [[_ H]|H]; [lia|]. specialize (I1 H). lia.
  - intros (x & [<- |Hx] & C); [unfold covers in C; lia|]. assert (covered l a) as K by (exists x; auto). specialize (I2 K). lia.
Qed.

Lemma sorted_undisturbed : forall l q, Forall good_placed l -> sorted q l -> undisturbed l.
Proof.
  induction l as [|p l IH]; intros q G S; [exact I|]. inversion G as [|? ? Gp G']; subst. destruct S as [S1 S2].
  cbn [undisturbed]. split; [|split; [|eapply IH; eauto]].
  - intros a C Sc. destruct (sorted_above l (pl_end p) a G' S2) as [K _]. specialize (K Sc). unfold covers in C. lia.
  - intros _ a C Cv. destruct (sorted_above l (pl_end p) a G' S2) as [_ K]. specialize (K Cv). unfold covers in C. lia.
Qed.

Lemma sorted_end : forall e l q a, Forall (fun p => exists bs, final_bytes e p bs) l -> sorted q l -> scratch q l a ->
  a < image_end (code_of e l).
Proof.
  intros e l. induction l as [|p l IH]; intros q a F S H; [destruct H|].
  inversion F as [|? ? (bs & Hb & Hs) F']; subst. destruct S as [S1 S2]. cbn [code_of].
  assert (exists rest, (match (match pl_bytes p with Some bs0 => Some bs0 | None => encode_operand e (pl_item p) end) with
    | Some bs0 => (it_addr (pl_item p), it_opcode (pl_item p) :: bs0) | None => (it_addr (pl_item p), []) end :: code_of e l)
    = (it_addr (pl_item p), it_opcode (pl_item p) :: bs) :: rest /\ rest = code_of e l) as (rest & -> & ->).
  { exists (code_of e l). split; [|reflexivity]. destruct (pl_bytes p); [subst|rewrite Hb]; reflexivity. }
  cbn [image_end]. fold (zlen (it_opcode (pl_item p) :: bs)). rewrite zlen_cons.
  destruct H as [[_ H]|H]; [lia|]. specialize (IH _ a F' S2 H). lia.
Qed.

Fixpoint end_of (q : Z) (l : list placed) : Z := match l with [] => q | p :: l' => end_of (pl_end p) l' end.

Lemma sorted_app : forall l q p, sorted q (l ++ [p]) <-> sorted q l /\ end_of q l <= it_addr (pl_item p).
Proof. induction l as [|x l IH]; intros q p; cbn [app sorted end_of]; [tauto|]. rewrite IH. tauto. Qed.

Lemma end_of_app : forall l q p, end_of q (l ++ [p]) = pl_end p.
Proof. induction l as [|x l IH]; intros q p; cbn [app end_of]; auto. Qed.

Lemma diag_instr_sorted : forall n st m o st', sorted 0 (d_done st) -> end_of 0 (d_done st) <= d_addr st ->
  diag_instr n st m o = inl st' -> sorted 0 (d_done st') /\ end_of 0 (d_done st') <= d_addr st'.
Proof.
  intros n st m o st' S E H. unfold Spec_Diag.diag_instr in H. destruct (_ && _); [discriminate|].
  destruct (denoted_mode m o (value_of (d_env st) o)) as [md|]; [|discriminate].
  destruct (has_mode AsBuilt m md _) as [[op size]|]; [|discriminate].
  destruct (unresolved (d_env st) o).
  - injection H as <-. cbn [d_done d_addr]. rewrite sorted_app, end_of_app. unfold pl_end. cbn. auto using Z.le_refl.
  - destruct (encode_operand (d_env st) _); [|discriminate]. injection H as <-. cbn [d_done d_addr].
    rewrite sorted_app, end_of_app. unfold pl_end. cbn. auto using Z.le_refl.
Qed.

Lemma diag_from_sorted : forall p n st, monotone_from (p1_of st) p -> sorted 0 (d_done st) ->
  end_of 0 (d_done st) <= d_addr st -> Forall (sound_placed (d_env st)) (d_done st) ->
  match diag_from n st p with DOk st' _ => sorted 0 (d_done st') | DError _ _ _ => True end.
Proof.
  induction p as [|s p IH]; intros n st M S E HS.
  - cbn [Spec_Diag.diag_from]. unfold Spec_Diag.d_close. destruct (complete _ _) as [|[? ?]]; [exact S|exact I].
  - assert (s = SEnd \/ s <> SEnd) as [-> |Ns] by (destruct s; auto; right; discriminate).
    + cbn [Spec_Diag.diag_from]. unfold Spec_Diag.d_close. destruct (complete _ _) as [|[? ?]]; [exact S|exact I].
    + assert (diag_from n st (s :: p) = match diag_stmt n st s with
        | inl st' => diag_from (n + 1) st' p | inr (m, w) => DError n m w end) as -> by (destruct s; try congruence; reflexivity).
      assert (match s with SOrg v => p1_addr (p1_of st) <= v | _ => True end /\
              match pass1_stmt (p1_of st) s with Some st' => monotone_from st' p | None => True end) as [M1 M2]
        by (destruct s; try congruence; exact M).
      pose proof (diag_stmt_ref AsBuilt n st s HS) as R.
      destruct (diag_stmt n st s) as [st1|[m w]] eqn:Ed; [|exact I]. destruct R as [R1 R2]. rewrite R1 in M2.
      assert (sorted 0 (d_done st1) /\ end_of 0 (d_done st1) <= d_addr st1) as [A B]; [|apply IH; auto].
      destruct s as [|l|l v|v| |[l|] m o]; cbn [Spec_Diag.diag_stmt] in Ed; try congruence.
      * injection Ed as <-. auto.
      * destruct (lookup (d_env st) l); [discriminate|]. injection Ed as <-. auto.
      * destruct (lookup (d_env st) l); [discriminate|]. injection Ed as <-. auto.
      * injection Ed as <-. cbn in *. split; [exact S|lia].
      * destruct (lookup (d_env st) l); [discriminate|]. eapply diag_instr_sorted; [| |exact Ed]; auto.
      * eapply diag_instr_sorted; [| |exact Ed]; auto.
Qed.

(** Prop_Bytes.v -- every byte of the binary has a cause (C88). *)
From Verif Require Import Base Proof_Base Model_Main Spec_Isa Spec_Text Spec_Asm
  Spec_Report Proof_Core Proof_Sim2 Proof_Run Proof_Modes Spec_Diag Spec_Prog Proof_Diag Proof_Whole Proof_Ref Proof_Image
  Proof_Regular Proof_At Proof_Prog Proof_Kept Proof_Check Spec_Bytes Prop_Program.

(** ** Lists *)
Lemma last_index : forall (P : nat -> Prop), (forall i, P i \/ ~ P i) -> forall n,
  (forall i, (i < n)%nat -> ~ P i) \/ exists i, (i < n)%nat /\ P i /\ forall j, (i < j < n)%nat -> ~ P j.
Proof.
  intros P D. induction n as [|n [N|(i & L & Hi & Hj)]]; [left; intros; lia| |].
  - destruct (D n) as [Y|Y]; [right; exists n; split; [lia|]; split; [exact Y|]; intros; lia|].
    left. intros i Hi. destruct (Nat.eq_dec i n) as [->|]; [exact Y|]. apply N. lia.
  - right. destruct (D n) as [Y|Y]; [exists n; split; [lia|]; split; [exact Y|]; intros; lia|].
    exists i. split; [lia|]. split; [exact Hi|]. intros j Lj. destruct (Nat.eq_dec j n) as [->|]; [exact Y|]. apply Hj. lia.
Qed.

Definition cov (l : list placed) (x : Z) (i : nat) : Prop := exists q, nth_error l i = Some q /\ covers q x.
Definition opn (l : list placed) (i : nat) : Prop := exists q, nth_error l i = Some q /\ is_open q = true.
Definition zer (l : list placed) (x : Z) (i : nat) : Prop :=
  exists q, nth_error l i = Some q /\ is_open q = true /\ end_of 0 (firstn i l) <= x < end_of 0 (firstn i l) + it_size (pl_item q).

Lemma cov_dec : forall l x i, cov l x i \/ ~ cov l x i.
Proof.
  intros l x i. unfold cov. destruct (nth_error l i) as [q|]; [|right; intros (q & E & _); discriminate].
  unfold covers. destruct (Z.le_gt_cases (it_addr (pl_item q)) x), (Z.lt_ge_cases x (pl_end q));
    [left; exists q; split; [reflexivity|lia]|right; intros (q' & E & C); injection E as <-; lia..].
Qed.
Lemma opn_dec : forall l i, opn l i \/ ~ opn l i.
Proof.
  intros l i. unfold opn. destruct (nth_error l i) as [q|]; [|right; intros (q & E & _); discriminate].
  destruct (is_open q) eqn:O; [left; eauto|right; intros (q' & E & C); injection E as <-; congruence].
Qed.
Lemma zer_dec : forall l x i, zer l x i \/ ~ zer l x i.
Proof.
  intros l x i. unfold zer. destruct (nth_error l i) as [q|]; [|right; intros (q & E & _); discriminate].
  destruct (is_open q) eqn:O; [|right; intros (q' & E & C & _); injection E as <-; congruence].
  destruct (Z.le_gt_cases (end_of 0 (firstn i l)) x), (Z.lt_ge_cases x (end_of 0 (firstn i l) + it_size (pl_item q)));
    [left; exists q; split; [reflexivity|]; split; [exact O|lia]|right; intros (q' & E & _ & C); injection E as <-; lia..].
Qed.

Lemma end_of_firstn : forall l i q, nth_error l i = Some q -> forall z, end_of z (firstn (S i) l) = pl_end q.
Proof.
  induction l as [|y l IH]; intros [|i] q H z; try discriminate; cbn [nth_error] in H.
  - injection H as ->. reflexivity.
  - cbn [firstn end_of]. rewrite <- (IH i q H (pl_end y)). reflexivity.
Qed.

(** the zero bytes, by index *)
Lemma scratch_zer : forall l z x, scratch z l x -> exists i q, nth_error l i = Some q /\ is_open q = true /\
  end_of z (firstn i l) <= x < end_of z (firstn i l) + it_size (pl_item q).
Proof.
  induction l as [|y l IH]; intros z x H; [destruct H|]. destruct H as [[O H]|H].
  - exists 0%nat, y. split; [reflexivity|]. split; [exact O|exact H].
  - destruct (IH _ _ H) as (i & q & A & B & C). exists (S i), q. split; [exact A|]. split; [exact B|exact C].
Qed.

Lemma firstn_mid : forall (l1 : list placed) q l2 i, firstn (S (List.length l1) + i) (l1 ++ q :: l2) = l1 ++ q :: firstn i l2.
Proof. induction l1 as [|y l1 IH]; intros q l2 i; cbn [List.length app firstn Nat.add]; [reflexivity|]. f_equal. apply IH. Qed.
Lemma end_of_mid : forall l1 q l z, end_of z (l1 ++ q :: l) = end_of (pl_end q) l.
Proof. induction l1 as [|y l1 IH]; intros q l z; cbn [app end_of]; [reflexivity|]. apply IH. Qed.

(** zero bytes that stay *)
Lemma zeros_kept : forall st i x, Forall good_placed (d_done st) ->
  Forall (fun p => exists bs, final_bytes (d_env st) p bs) (d_done st) ->
  zer (d_done st) x i -> (forall j, opn (d_done st) j -> ~ cov (d_done st) x j) ->
  (forall j, (i < j)%nat -> ~ cov (d_done st) x j /\ ~ zer (d_done st) x j) ->
  byte_at (writes AsBuilt st) x = Some 0.
Proof.
  intros st i x G F (q & N & O & Z0) NO L. unfold writes. rewrite byte_at_app.
  rewrite last_none; [|exact F|].
  2:{ intros p Hp Op Cp. destruct (In_nth_error _ _ Hp) as (j & Hj). apply (NO j); [exists p; auto|exists p; auto]. }
  destruct (nth_error_split _ _ N) as (l1 & l2 & E & Li). rewrite E in *. subst i.
  assert (end_of 0 (firstn (List.length l1) (l1 ++ q :: l2)) = end_of 0 l1) as Ez.
  { rewrite firstn_app, Nat.sub_diag, firstn_all. cbn [firstn]. rewrite app_nil_r. reflexivity. }
  rewrite Ez in Z0. rewrite first_writes_app, byte_at_app. cbn [first_writes]. rewrite byte_at_app.
  apply Forall_app in G. destruct G as [_ G]. inversion G as [|? ? (G1 & G2 & G3 & G4) G']; subst.
  rewrite first_none; [|exact G'| |].
  - unfold is_open in O. destruct (pl_bytes q) as [b|] eqn:Eb; [discriminate|].
    assert (Nc : ~ covers q x).
    { intro C. apply (NO (List.length l1)); exists q; (split; [exact N|]); [unfold is_open; rewrite Eb; reflexivity|exact C]. }
    unfold covers, pl_end in Nc. rewrite piece_at, one_out by (rewrite zlen_cons, zlen_zeros by lia; lia).
    rewrite zlen_zeros by lia.
    assert ((end_of 0 l1 <=? x) && (x <? end_of 0 l1 + it_size (pl_item q)) = true) as ->
      by (apply andb_true_iff; split; [apply Z.leb_le|apply Z.ltb_lt]; lia).
    destruct (nth_error (zeros (it_size (pl_item q))) (Z.to_nat (x - end_of 0 l1))) as [b|] eqn:En.
    + apply nth_error_In, repeat_spec in En. subst. reflexivity.
    + apply nth_error_None in En. pose proof (zlen_zeros (it_size (pl_item q)) ltac:(lia)) as Hl. unfold zlen in Hl. lia.
  - intros (p & Hp & Cp). destruct (In_nth_error _ _ Hp) as (j & Hj).
    destruct (L (S (List.length l1) + j)%nat ltac:(lia)) as [K _]. apply K. exists p. split; [|exact Cp].
    rewrite nth_error_app2 by lia. replace (S (List.length l1) + j - List.length l1)%nat with (S j) by lia. exact Hj.
  - intro Sc. destruct (scratch_zer _ _ _ Sc) as (j & p & Hj & Op & Hz).
    destruct (L (S (List.length l1) + j)%nat ltac:(lia)) as [_ K]. apply K. exists p. split.
    { rewrite nth_error_app2 by lia. replace (S (List.length l1) + j - List.length l1)%nat with (S j) by lia. exact Hj. }
    split; [exact Op|]. rewrite firstn_mid, end_of_mid. exact Hz.
Qed.

Lemma gap_kept : forall st x, Forall good_placed (d_done st) ->
  Forall (fun p => exists bs, final_bytes (d_env st) p bs) (d_done st) ->
  (forall j, ~ cov (d_done st) x j /\ ~ zer (d_done st) x j) -> byte_at (writes AsBuilt st) x = None.
Proof.
  intros st x G F N. unfold writes. rewrite byte_at_app.
  rewrite last_none; [|exact F|].
  2:{ intros p Hp _ Cp. destruct (In_nth_error _ _ Hp) as (j & Hj). apply (proj1 (N j)). exists p. auto. }
  apply first_none; [exact G| |].
  - intros (p & Hp & Cp). destruct (In_nth_error _ _ Hp) as (j & Hj). apply (proj1 (N j)). exists p. auto.
  - intro Sc. destruct (scratch_zer _ _ _ Sc) as (j & p & Hj & Op & Hz). apply (proj2 (N j)). exists p. auto.
Qed.

(** the end of the file *)
Lemma writes_in : forall st w, Forall (fun p => exists bs, final_bytes (d_env st) p bs) (d_done st) ->
  In w (writes AsBuilt st) <-> (exists i q, nth_error (d_done st) i = Some q /\
    ((exists bs, w = (it_addr (pl_item q), bs) /\ it_size (pl_item q) = zlen bs /\ final_bytes (d_env st) q (tl bs) /\ bs = it_opcode (pl_item q) :: tl bs) \/
     (is_open q = true /\ (w = (end_of 0 (firstn i (d_done st)), zeros (it_size (pl_item q))) \/
        w = (it_addr (pl_item q), it_opcode (pl_item q) :: zeros (it_size (pl_item q) - 1)))))).
Proof.
  intros st w F. unfold writes. rewrite in_app_iff.
  assert (A : forall l z, In w (first_writes z l) <-> exists i q, nth_error l i = Some q /\
     match pl_bytes q with Some bs => w = (it_addr (pl_item q), it_opcode (pl_item q) :: bs)
     | None => w = (end_of z (firstn i l), zeros (it_size (pl_item q))) \/ w = (it_addr (pl_item q), it_opcode (pl_item q) :: zeros (it_size (pl_item q) - 1)) end).
  { clear F. induction l as [|y l IH]; intro z; [cbn [first_writes]; split; [intros []|intros (i & q & N & _); destruct i; discriminate]|].
    cbn [first_writes]. rewrite in_app_iff, IH. split.
    - intros [H|(i & q & N & H)]; [exists 0%nat, y; split; [reflexivity|]|exists (S i), q; split; [exact N|exact H]].
      cbn [firstn end_of]. destruct (pl_bytes y); cbn [In] in H; intuition.
    - intros ([|i] & q & N & H); cbn [nth_error] in N.
      + injection N as <-. left. cbn [firstn end_of] in H. destruct (pl_bytes y); cbn [In]; intuition.
      + right. exists i, q. split; [exact N|exact H]. }
  assert (B : forall l, In w (last_writes AsBuilt (d_env st) l) <-> exists i q bs, nth_error l i = Some q /\ pl_bytes q = None /\
     encode_operand AsBuilt (d_env st) (pl_item q) = Some bs /\ w = (it_addr (pl_item q), it_opcode (pl_item q) :: bs)).
  { clear F A. induction l as [|y l IH]; [cbn [last_writes]; split; [intros []|intros (i & q & bs & N & _); destruct i; discriminate]|].
    cbn [last_writes]. rewrite in_app_iff, IH. split.
    - intros [H|(i & q & bs & N & H)]; [|exists (S i), q, bs; split; [exact N|exact H]].
      destruct (pl_bytes y) eqn:E1; [destruct H|]. destruct (encode_operand AsBuilt (d_env st) (pl_item y)) as [bs|] eqn:E2; [|destruct H].
      destruct H as [<-|[]]. exists 0%nat, y, bs. auto.
    - intros ([|i] & q & bs & N & H1 & H2 & ->); cbn [nth_error] in N.
      + injection N as <-. left. rewrite H1, H2. left. reflexivity.
      + right. exists i, q, bs. auto. }
  rewrite A, B. rewrite Forall_forall in F. split.
  - intros [(i & q & N & H)|(i & q & bs & N & H1 & H2 & ->)]; exists i, q; (split; [exact N|]);
      destruct (F q (nth_error_In _ _ N)) as (b & Fb & Sz).
    + destruct (pl_bytes q) as [bs|] eqn:E; [|right; split; [unfold is_open; rewrite E; reflexivity|exact H]].
      subst b. left. exists (it_opcode (pl_item q) :: bs). rewrite zlen_cons. cbn [tl]. split; [exact H|]. split; [lia|].
      split; [split; [rewrite E; reflexivity|exact Sz]|reflexivity].
    + rewrite H1, H2 in Fb. injection Fb as <-. left. exists (it_opcode (pl_item q) :: bs). rewrite zlen_cons. cbn [tl]. split; [reflexivity|]. split; [lia|].
      split; [split; [rewrite H1, H2; reflexivity|exact Sz]|reflexivity].
  - intros (i & q & N & [(bs & -> & Sz & (Fb & Sb) & Eb)|(O & H)]).
    + destruct (pl_bytes q) as [b|] eqn:E.
      * left. exists i, q. split; [exact N|]. rewrite E, Fb, <- Eb. reflexivity.
      * right. exists i, q, (tl bs). rewrite <- Eb. auto.
    + left. exists i, q. split; [exact N|]. unfold is_open in O. destruct (pl_bytes q); [discriminate|exact H].
Qed.

Lemma last_end_unique : forall r p k q q', last_end r p k q -> last_end r p k q' -> q = q'.
Proof.
  intros r p k q q' [(-> & A)|(j & s & L & N & I & E & M)] [(-> & A')|(j' & s' & L' & N' & I' & E' & M')]; try reflexivity.
  - rewrite (A _ _ L' N') in I'. discriminate.
  - rewrite (A' _ _ L N) in I. discriminate.
  - assert (j = j') as <-; [|congruence]. destruct (Nat.lt_trichotomy j j') as [K|[K|K]]; [|exact K|].
    + rewrite (M j' s' (conj K L') N') in I'. discriminate.
    + rewrite (M' j s (conj K L) N) in I. discriminate.
Qed.

(** ** Statements *)
Section Bytes.
  Variable p : list stmt.
  Variable fin : dstate.
  Variable code : list (Z * list Z).
  Hypothesis HD : diagnose AsBuilt p = DOk fin code.
  Hypothesis H16 : Forall stmt16 p.

  Lemma index_of : forall i, (i < List.length (d_done fin))%nat -> exists k s, nth_error (body p) k = Some s /\ is_instr s = true /\ instr_number p k = i.
  Proof. intros i H. destruct (nth_error (d_done fin) i) as [q|] eqn:E; [apply (placed_index p fin code HD i q E)|]. apply nth_error_None in E. lia. Qed.

  Lemma by_index : forall k s, nth_error (body p) k = Some s -> is_instr s = true ->
    (forall x, cov (d_done fin) x (instr_number p k) <-> spans AsBuilt p k x) /\
    (opn (d_done fin) (instr_number p k) <-> forward AsBuilt p k) /\
    (forall x, zer (d_done fin) x (instr_number p k) <-> zero_span AsBuilt p k x).
  Proof.
    intros k s K I. destruct (placed_at p fin code HD k s K I) as (q & N & Cv & Op & Ad & Ad').
    split; [|split].
    - intro x. rewrite <- Cv. unfold cov. rewrite N. split; [intros (q' & E & C); injection E as <-; exact C|eauto].
    - rewrite <- Op. unfold opn. rewrite N. split; [intros (q' & E & C); injection E as <-; exact C|eauto].
    - intro x. assert (LE : last_end AsBuilt p k (end_of 0 (firstn (instr_number p k) (d_done fin)))).
      { apply (last_end_pos p fin code HD k s _ K I). destruct (instr_number p k) as [|i] eqn:Ei; [reflexivity|].
        destruct (nth_error (d_done fin) i) as [q'|] eqn:Eq; [exists q'; split; [reflexivity|apply end_of_firstn; exact Eq]|].
        apply nth_error_None in Eq. assert (S i < List.length (d_done fin))%nat by (apply nth_error_Some; congruence). lia. }
      unfold zer, zero_span. rewrite N, <- Op. split.
      + intros (q' & E & O & H). injection E as <-. split; [exact O|]. eexists _, _, _. split; [exact LE|]. split; [exact Ad|]. split; [exact Ad'|]. unfold pl_end. lia.
      + intros (O & z & a & b & L & A1 & A2 & H). rewrite (last_end_unique _ _ _ _ _ L LE) in H. rewrite Ad in A1. rewrite Ad' in A2.
        injection A1 as <-. injection A2 as <-. exists q. split; [reflexivity|]. split; [exact O|]. unfold pl_end in H. lia.
  Qed.

  Lemma spans_instr : forall k x, spans AsBuilt p k x -> exists s, nth_error (body p) k = Some s /\ is_instr s = true.
  Proof. intros k x (lab & m & o & a & b & N & _). eexists. split; [exact N|reflexivity]. Qed.
  Lemma zero_instr : forall k x, zero_span AsBuilt p k x -> exists s, nth_error (body p) k = Some s /\ is_instr s = true.
  Proof. intros k x ((lab & m & o & a & b & N & _) & _). eexists. split; [exact N|reflexivity]. Qed.

  Lemma number_lt : forall k i s, nth_error (body p) k = Some s -> is_instr s = true -> forall n, instr_number p i = n ->
    (instr_number p k < n)%nat <-> (k < i)%nat.
  Proof. intros k i s N I n <-. apply (pos_lt p k i s N I). Qed.

  (** one of the four cases *)
  Lemma some_cause : forall x, exists b, Final_byte p code x b.
  Proof.
    intro x. set (l := d_done fin).
    assert (BY : forall k a bs b, nth_error code (instr_number p k) = Some (a, bs) -> nth_error bs (Z.to_nat (x - a)) = Some b -> byte_of p code k x b)
      by (intros; exists a, bs; auto).
    destruct (good_done p fin code HD H16) as (G & F & Ec). pose proof F as F0. rewrite Forall_forall in F0.
    assert (HAS : forall k, spans AsBuilt p k x -> exists b, byte_of p code k x b).
    { intros k HS. destruct (spans_instr _ _ HS) as (s & K & I). destruct (placed_at p fin code HD k s K I) as (q & N & Cv & _).
      destruct (F0 q (nth_error_In _ _ N)) as (bs & Fb). pose proof (code_at fin (d_done fin) _ _ _ N Fb) as C. rewrite Ec in C.
      apply Cv in HS. destruct (one_some (it_addr (pl_item q)) (it_opcode (pl_item q) :: bs) x) as (b & Eb).
      { unfold covers, pl_end in HS. destruct Fb as [_ Sz]. rewrite zlen_cons. lia. }
      exists b. eapply BY; eauto. }
    assert (D1 : forall i, opn l i /\ cov l x i \/ ~ (opn l i /\ cov l x i)) by (intro i; destruct (opn_dec l i), (cov_dec l x i); tauto).
    destruct (last_index _ D1 (List.length l)) as [NO|(i & Li & (O & C) & Hl)].
    - assert (NP : ~ patched p x).
      { intros (k & FW & HS). destruct (spans_instr _ _ HS) as (s & K & I). destruct (by_index k s K I) as (B1 & B2 & _).
        apply (NO (instr_number p k)); [|split; [apply B2, FW|apply B1, HS]]. apply B1 in HS. destruct HS as (q & N & _). apply nth_error_Some; unfold l in *; congruence. }
      assert (D2 : forall i, cov l x i \/ zer l x i \/ ~ (cov l x i \/ zer l x i)) by (intro i; destruct (cov_dec l x i), (zer_dec l x i); tauto).
      destruct (last_index (fun i => cov l x i \/ zer l x i) ltac:(intro i; destruct (D2 i) as [|[|]]; tauto) (List.length l)) as [N0|(i & Li & C & Hl)].
      + exists 0. apply final_gap. intro j. split; intro H.
        * destruct (spans_instr _ _ H) as (s & K & I). destruct (by_index j s K I) as (B1 & _ & _). apply B1 in H.
          apply (N0 (instr_number p j)); [|left; exact H]. destruct H as (q & N & _). apply nth_error_Some; unfold l in *; congruence.
        * destruct (zero_instr _ _ H) as (s & K & I). destruct (by_index j s K I) as (_ & _ & B3). apply B3 in H.
          apply (N0 (instr_number p j)); [|right; exact H]. destruct H as (q & N & _). apply nth_error_Some; unfold l in *; congruence.
      + destruct (index_of i Li) as (k & s & K & I & Ek). destruct (by_index k s K I) as (B1 & B2 & B3). rewrite Ek in B1, B2, B3.
        assert (LATER : forall j, (k < j)%nat -> ~ spans AsBuilt p j x /\ ~ zero_span AsBuilt p j x).
        { intros j Lj. split; intro H.
          - destruct (spans_instr _ _ H) as (sj & Kj & Ij). destruct (by_index j sj Kj Ij) as (C1 & _ & _). apply C1 in H.
            apply (Hl (instr_number p j)); [|left; exact H]. split; [rewrite <- Ek; apply (pos_lt p k j s K I); exact Lj|].
            destruct H as (q & N & _). apply nth_error_Some; unfold l in *; congruence.
          - destruct (zero_instr _ _ H) as (sj & Kj & Ij). destruct (by_index j sj Kj Ij) as (_ & _ & C1). apply C1 in H.
            apply (Hl (instr_number p j)); [|right; exact H]. split; [rewrite <- Ek; apply (pos_lt p k j s K I); exact Lj|].
            destruct H as (q & N & _). apply nth_error_Some; unfold l in *; congruence. }
        destruct C as [C|C].
        * apply B1 in C. destruct (HAS k C) as (b & Hb). exists b. eapply final_code; eauto.
        * apply B3 in C. exists 0. eapply final_zeros; eauto.
    - destruct (index_of i Li) as (k & s & K & I & Ek). destruct (by_index k s K I) as (B1 & B2 & _). rewrite Ek in B1, B2.
      apply B1 in C. apply B2 in O. destruct (HAS k C) as (b & Hb). exists b. eapply final_forward; eauto.
      intros j Lj FW H. destruct (spans_instr _ _ H) as (sj & Kj & Ij). destruct (by_index j sj Kj Ij) as (C1 & C2 & _). apply C1 in H. apply C2 in FW.
      apply (Hl (instr_number p j)); [|split; assumption]. split; [rewrite <- Ek; apply (pos_lt p k j s K I); exact Lj|].
      destruct H as (q & N & _). apply nth_error_Some; unfold l in *; congruence.
  Qed.

  (** and it is what the writes leave *)
  Lemma cause_writes : forall x b, Final_byte p code x b -> match byte_at (writes AsBuilt fin) x with Some y => y | None => 0 end = b.
  Proof.
    intros x b H. destruct (good_done p fin code HD H16) as (G & F & Ec).
    destruct H as [k b FW HS HN (a & bs & C & E)|k b NP HS HL (a & bs & C & E)|k NP HZ HL|HN].
    - destruct (forward_kept p fin code HD H16 k a bs x FW HS C HN) as (_ & -> & _). rewrite E. reflexivity.
    - destruct (bytes_kept p fin code HD H16 k a bs x HS C) as (_ & -> & _); [intros j Lj; apply (HL j Lj)..| |rewrite E; reflexivity].
      intros j _ FW Sp. apply NP. exists j. auto.
    - destruct (zero_instr _ _ HZ) as (s & K & I). destruct (by_index k s K I) as (_ & _ & B3). apply B3 in HZ.
      rewrite (zeros_kept fin (instr_number p k) x G F HZ); [reflexivity| |].
      + intros j Oj Cj. assert (Lj : (j < List.length (d_done fin))%nat) by (destruct Oj as (q & N & _); apply nth_error_Some; rewrite N; discriminate).
        destruct (index_of j Lj) as (k' & s' & K' & I' & Ek). destruct (by_index k' s' K' I') as (C1 & C2 & _). rewrite Ek in C1, C2.
        apply NP. exists k'. split; [apply C2, Oj|apply C1, Cj].
      + intros j Lj. split; intro H; (assert (Lb : (j < List.length (d_done fin))%nat) by (destruct H as (q & N & _); apply nth_error_Some; rewrite N; discriminate));
          destruct (index_of j Lb) as (k' & s' & K' & I' & Ek); destruct (by_index k' s' K' I') as (C1 & C2 & C3); rewrite Ek in C1, C3;
          (assert (Lk : (k < k')%nat) by (apply (pos_lt p k k' s K I); lia)); destruct (HL k' Lk) as [H1 H2].
        * apply H1, C1, H.
        * apply H2, C3, H.
    - rewrite (gap_kept fin x G F); [reflexivity|]. intro j. split; intro H; (assert (Lb : (j < List.length (d_done fin))%nat) by (destruct H as (q & N & _); apply nth_error_Some; rewrite N; discriminate));
        destruct (index_of j Lb) as (k' & s' & K' & I' & Ek); destruct (by_index k' s' K' I') as (C1 & C2 & C3); rewrite Ek in C1, C3; destruct (HN k') as [H1 H2].
      + apply H1, C1, H.
      + apply H2, C3, H.
  Qed.

  (** the file reaches as far as the last byte anything was written to *)
  Lemma writes_end : forall x, 0 <= x -> (x < image_end (writes AsBuilt fin) <-> exists y k, x <= y /\ (spans AsBuilt p k y \/ zero_span AsBuilt p k y)).
  Proof.
    intros x Hx. destruct (good_done p fin code HD H16) as (G & F & Ec). pose proof F as F0. rewrite Forall_forall in F0. rewrite Forall_forall in G.
    split.
    - intro H. assert (E : ~ image_end (writes AsBuilt fin) <= x) by lia.
      assert (exists w, In w (writes AsBuilt fin) /\ x < fst w + zlen (snd w)) as (w & Iw & Hw).
      { apply Decidable.not_not; [unfold Decidable.decidable|]; [|].
        - destruct (Exists_dec (fun w => x < fst w + zlen (snd w)) (writes AsBuilt fin) (fun w => Z_lt_dec x (fst w + zlen (snd w)))) as [Y|N].
          + left. apply Exists_exists in Y. exact Y.
          + right. intro K. apply N. apply Exists_exists. exact K.
        - intro K. apply E. apply image_end_le; [exact Hx|]. apply Forall_forall. intros w Iw.
          destruct (Z.le_gt_cases (fst w + zlen (snd w)) x) as [|L]; [assumption|]. exfalso. apply K. exists w. split; [exact Iw|lia]. }
      apply writes_in in Iw; [|exact F]. destruct Iw as (i & q & N & Hq).
      assert (Lb : (i < List.length (d_done fin))%nat) by (apply nth_error_Some; rewrite N; discriminate).
      destruct (index_of i Lb) as (k & s & K & I & Ek). destruct (by_index k s K I) as (B1 & B2 & B3). rewrite Ek in B1, B2, B3.
      destruct (G q (nth_error_In _ _ N)) as (G1 & G2 & _ & _).
      assert (COV : x < pl_end q -> exists y k, x <= y /\ (spans AsBuilt p k y \/ zero_span AsBuilt p k y)).
      { intro L. exists (pl_end q - 1), k. split; [lia|]. left. apply B1. exists q. split; [exact N|]. unfold covers, pl_end. lia. }
      destruct Hq as [(bs & -> & Sz & _)|(O & [-> | ->])]; cbn [fst snd] in Hw.
      + apply COV. unfold pl_end. lia.
      + rewrite zlen_zeros in Hw by lia. exists (end_of 0 (firstn i (d_done fin)) + it_size (pl_item q) - 1), k. split; [lia|]. right. apply B3.
        exists q. split; [exact N|]. split; [exact O|]. lia.
      + apply COV. unfold pl_end. rewrite zlen_cons, zlen_zeros in Hw by lia. lia.
    - intros (y & k & L & H). destruct (Z.lt_ge_cases x (image_end (writes AsBuilt fin))) as [|Ge]; [assumption|]. exfalso.
      assert (A : Forall (fun w => fst w + zlen (snd w) <= x) (writes AsBuilt fin)) by (apply image_end_le; [exact Hx|lia]).
      rewrite Forall_forall in A. destruct H as [H|H].
      + destruct (spans_instr _ _ H) as (s & K & I). destruct (by_index k s K I) as (B1 & _ & _). apply B1 in H. destruct H as (q & N & C).
        destruct (F0 q (nth_error_In _ _ N)) as (bs & Fb). pose proof Fb as [_ Sz].
        specialize (A (it_addr (pl_item q), it_opcode (pl_item q) :: bs)). cbn [fst snd] in A. rewrite zlen_cons in A. unfold covers, pl_end in C.
        enough (it_addr (pl_item q) + (1 + zlen bs) <= x) by lia. apply A. apply writes_in; [exact F|]. exists (instr_number p k), q. split; [exact N|].
        left. exists (it_opcode (pl_item q) :: bs). rewrite zlen_cons. cbn [tl]. split; [reflexivity|]. split; [lia|]. split; [exact Fb|reflexivity].
      + destruct (zero_instr _ _ H) as (s & K & I). destruct (by_index k s K I) as (_ & _ & B3). apply B3 in H. destruct H as (q & N & O & C).
        destruct (G q (nth_error_In _ _ N)) as (G1 & G2 & _ & _).
        specialize (A (end_of 0 (firstn (instr_number p k) (d_done fin)), zeros (it_size (pl_item q)))). cbn [fst snd] in A. rewrite zlen_zeros in A by lia.
        enough (end_of 0 (firstn (instr_number p k) (d_done fin)) + it_size (pl_item q) <= x) by lia. apply A. apply writes_in; [exact F|].
        exists (instr_number p k), q. split; [exact N|]. right. split; [exact O|]. left. reflexivity.
  Qed.
End Bytes.

(** ** C88 *)
(** the file ends behind the last byte that an instruction or the zero bytes of a forward reference lie at *)
Theorem C88_length : forall file src p o x, program_means src p -> small src -> gaia file src = Ret o -> exit_code o = 0 -> 0 <= x ->
  (x < Z.of_nat (List.length (binary o)) <-> exists y k, x <= y /\ (spans AsBuilt p k y \/ zero_span AsBuilt p k y)).
Proof.
  intros file src p o x HM HB HG HE Hx. destruct (assembled _ _ _ _ HM HB HG HE) as (st & code & A & _ & _ & _ & _ & (W & _) & _).
  rewrite W. apply (writes_end p st code A (program_16 _ _ HM) x Hx).
Qed.

(** every byte in it has exactly one of the causes *)
Theorem C88_bytes : forall file src p o code x b, program_means src p -> small src -> gaia file src = Ret o -> exit_code o = 0 ->
  reference AsBuilt p = Some code -> 0 <= x < Z.of_nat (List.length (binary o)) ->
  (nth_error (binary o) (Z.to_nat x) = Some b <-> Final_byte p code x b).
Proof.
  intros file src p o code x b HM HB HG HE R Hx. destruct (assembled _ _ _ _ HM HB HG HE) as (st & code' & A & R' & _ & _ & _ & (W & V) & _).
  rewrite R in R'. injection R' as <-. rewrite V by lia.
  destruct (some_cause p st code A (program_16 _ _ HM) x) as (b' & Hb). split.
  - intro E. injection E as E. pose proof (cause_writes p st code A (program_16 _ _ HM) x b' Hb) as K. rewrite K in E. subst. exact Hb.
  - intro H. f_equal. apply (cause_writes p st code A (program_16 _ _ HM) x b H).
Qed.

(** ** The hypotheses are met: a program with bytes of all four causes *)
Definition cause_lines : list text := [T " .ORG $8"; T " JMP F"; T " .ORG 4"; T " LDA #1"; T "F NOP"].
Definition cause_stmts : list stmt := [SOrg 8; SInstr None "JMP" (ODir (Lab (T "F"))); SOrg 4; SInstr None "LDA" (OImm (Num 1)); SInstr (Some (T "F")) "NOP" ONone].
Example C88_case : exists o, program_means (join cause_lines) cause_stmts /\ small (join cause_lines) /\ gaia (T "a.asm") (join cause_lines) = Ret o /\ exit_code o = 0 /\
  reference AsBuilt cause_stmts = Some [(8, [0x4C; 6; 0]); (4, [0xA9; 1]); (6, [0xEA])] /\
  binary o = [0; 0; 0; 0; 0xA9; 1; 0xEA; 0; 0x4C; 6; 0] /\
  zero_span AsBuilt cause_stmts 1 2 /\ (forward AsBuilt cause_stmts 1 /\ spans AsBuilt cause_stmts 1 9) /\ spans AsBuilt cause_stmts 3 4.
Proof.
  destruct (statements cause_lines) as [p|] eqn:E; [|vm_compute in E; discriminate].
  destruct (program_check cause_lines p ltac:(vm_compute; reflexivity) E) as (_ & _ & M).
  vm_compute in E. injection E as <-. change (program_means (join cause_lines) cause_stmts) in M.
  assert (FW : forward AsBuilt cause_stmts 1).
  { exists None, "JMP"%string, (ODir (Lab (T "F"))), 8, []. split; [reflexivity|]. split; [vm_compute; reflexivity|]. split; vm_compute; reflexivity. }
  eexists. split; [exact M|]. split; [vm_compute; reflexivity|]. split; [vm_compute; reflexivity|]. split; [reflexivity|]. split; [vm_compute; reflexivity|].
  split; [reflexivity|]. split; [|split].
  - split; [exact FW|]. exists 0, 8, 11. split; [left; split; [reflexivity|]|].
    + intros [|j] s L N; [injection N as <-; reflexivity|lia].
    + split; [vm_compute; reflexivity|]. split; [vm_compute; reflexivity|]. lia.
  - split; [exact FW|]. exists None, "JMP"%string, (ODir (Lab (T "F"))), 8, 11. split; [reflexivity|]. split; [vm_compute; reflexivity|]. split; [vm_compute; reflexivity|]. lia.
  - exists None, "LDA"%string, (OImm (Num 1)), 4, 6. split; [reflexivity|]. split; [vm_compute; reflexivity|]. split; [vm_compute; reflexivity|]. lia.
Qed.

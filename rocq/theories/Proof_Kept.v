(** Proof_Kept.v -- which bytes of the code are in the file at the end. *)
From Verif Require Import Base Proof_Base Model_Main Spec_Isa Spec_Text Spec_Asm
  Proof_Core Proof_Sim2 Proof_Modes Spec_Diag Spec_Prog Proof_Diag Proof_Whole Proof_Ref Proof_Image
  Proof_Regular Proof_At Proof_Prog.

(** ** On the list of the placed instructions *)
Lemma byte_at_none : forall l x, (forall p bs, In (p, bs) l -> ~ (p <= x < p + zlen bs)) -> byte_at l x = None.
Proof.
  induction l as [|[p bs] l IH]; intros x H; [reflexivity|]. rewrite piece_at, IH by (intros; apply H; right; assumption).
  specialize (H p bs (or_introl eq_refl)).
  destruct (Z.leb_spec p x), (Z.ltb_spec x (p + zlen bs)); cbn [andb]; try reflexivity. lia.
Qed.

Lemma first_none : forall l q x, Forall good_placed l -> ~ covered l x -> ~ scratch q l x -> byte_at (first_writes q l) x = None.
Proof.
  induction l as [|p l IH]; intros q x G C S; [reflexivity|]. inversion G as [|? ? (G1 & G2 & G3 & G4) G']; subst.
  cbn [first_writes]. rewrite byte_at_app, IH; auto.
  2:{ intros (y & Hy & K). apply C. exists y. split; [right|]; auto. }
  2:{ intro K. apply S. right. exact K. }
  assert (Np : ~ covers p x) by (intro K; apply C; exists p; split; [left; reflexivity|exact K]).
  unfold covers, pl_end in Np. destruct (pl_bytes p) as [bs|] eqn:Eb.
  - apply one_out. rewrite zlen_cons. destruct G4 as [_ G4]. lia.
  - apply byte_at_none. intros a bs [K|[K|[]]]; injection K as <- <-.
    + rewrite zlen_zeros by lia. intro K. apply S. left. split; [unfold is_open; rewrite Eb; reflexivity|lia].
    + rewrite zlen_cons, zlen_zeros by lia. lia.
Qed.

Lemma last_none : forall e l x, Forall (fun p => exists bs, final_bytes e p bs) l ->
  (forall p, In p l -> is_open p = true -> ~ covers p x) -> byte_at (last_writes AsBuilt e l) x = None.
Proof.
  intros e l x F. induction F as [|p l (bs & Hb & Hs) F IH]; intro H; [reflexivity|]. cbn [last_writes].
  rewrite byte_at_app, IH by (intros; apply H; [right|]; assumption).
  specialize (H p (or_introl eq_refl)). unfold is_open, covers, pl_end in H. destruct (pl_bytes p) as [b|]; [reflexivity|].
  rewrite Hb. apply one_out. rewrite zlen_cons. specialize (H eq_refl). lia.
Qed.

Lemma one_byte : forall p bs x, p <= x < p + zlen bs -> byte_at [(p, bs)] x = nth_error bs (Z.to_nat (x - p)).
Proof.
  intros p bs x H. rewrite one_piece.
  assert ((p <=? x) && (x <? p + zlen bs) = true) as -> by (apply andb_true_iff; split; [apply Z.leb_le|apply Z.ltb_lt]; lia).
  reflexivity.
Qed.

Lemma one_some : forall (p : Z) (bs : list Z) x, p <= x < p + zlen bs -> exists b, nth_error bs (Z.to_nat (x - p)) = Some b.
Proof.
  intros p bs x H. destruct (nth_error bs (Z.to_nat (x - p))) eqn:E; [eauto|]. apply nth_error_None in E. unfold zlen in H. lia.
Qed.

Lemma first_writes_app : forall l1 l2 q, first_writes q (l1 ++ l2) = first_writes q l1 ++ first_writes (end_of q l1) l2.
Proof. induction l1 as [|p l1 IH]; intros l2 q; [reflexivity|]. cbn [app first_writes end_of]. rewrite IH, app_assoc. reflexivity. Qed.

Lemma last_writes_app : forall e l1 l2, last_writes AsBuilt e (l1 ++ l2) = last_writes AsBuilt e l1 ++ last_writes AsBuilt e l2.
Proof. induction l1 as [|p l1 IH]; intro l2; [reflexivity|]. cbn [app last_writes]. rewrite IH, app_assoc. reflexivity. Qed.

(** the bytes of an open instruction *)
Lemma open_kept : forall st l1 p l2 bs x, Forall good_placed (d_done st) ->
  Forall (fun p => exists bs, final_bytes (d_env st) p bs) (d_done st) ->
  d_done st = l1 ++ p :: l2 -> is_open p = true -> final_bytes (d_env st) p bs -> covers p x ->
  (forall q, In q l2 -> is_open q = true -> ~ covers q x) ->
  byte_at (writes AsBuilt st) x = nth_error (it_opcode (pl_item p) :: bs) (Z.to_nat (x - it_addr (pl_item p))) .
Proof.
  intros st l1 p l2 bs x G F E O (Hb & Hs) C N. unfold writes. rewrite byte_at_app, E, last_writes_app, byte_at_app.
  rewrite E in F. apply Forall_app in F. destruct F as [_ F]. inversion F as [|? ? _ F2]; subst.
  cbn [last_writes]. unfold is_open in O. destruct (pl_bytes p); [discriminate|]. rewrite Hb. cbn [app].
  rewrite piece_at, last_none by assumption. unfold covers, pl_end in C.
  pose proof (one_byte (it_addr (pl_item p)) (it_opcode (pl_item p) :: bs) x) as B. rewrite one_piece in B. rewrite B.
  2:{ rewrite zlen_cons. lia. }
  destruct (one_some (it_addr (pl_item p)) (it_opcode (pl_item p) :: bs) x) as (b & Eb); [rewrite zlen_cons; lia|].
  rewrite Eb. reflexivity.
Qed.

(** the bytes of an instruction whose operand was known *)
Lemma closed_kept : forall st l1 p l2 bs x, Forall good_placed (d_done st) ->
  Forall (fun p => exists bs, final_bytes (d_env st) p bs) (d_done st) ->
  d_done st = l1 ++ p :: l2 -> is_open p = false -> final_bytes (d_env st) p bs -> covers p x ->
  ~ covered l2 x -> ~ scratch (pl_end p) l2 x -> (forall q, In q l1 -> is_open q = true -> ~ covers q x) ->
  byte_at (writes AsBuilt st) x = nth_error (it_opcode (pl_item p) :: bs) (Z.to_nat (x - it_addr (pl_item p))) .
Proof.
  intros st l1 p l2 bs x G F E O (Hb & Hs) C N2 S2 N1. unfold writes. rewrite byte_at_app.
  rewrite last_none; [|exact F|].
  2:{ intros q Hq Oq. rewrite E in Hq. apply in_app_or in Hq. destruct Hq as [Hq|[<-|Hq]]; [auto|congruence|].
      intro K. apply N2. exists q. auto. }
  rewrite E, first_writes_app, byte_at_app. rewrite E in G. apply Forall_app in G. destruct G as [_ G]. inversion G as [|? ? _ G2]; subst.
  cbn [first_writes]. rewrite byte_at_app, first_none by assumption.
  unfold is_open in O. destruct (pl_bytes p) as [b|]; [|discriminate]. subst b.
  unfold covers, pl_end in C. rewrite one_byte by (rewrite zlen_cons; lia).
  destruct (one_some (it_addr (pl_item p)) (it_opcode (pl_item p) :: bs) x) as (b & Eb); [rewrite zlen_cons; lia|].
  rewrite Eb. reflexivity.
Qed.

(** ** From the placed instructions to the statements *)
Lemma firstn_next : forall A (l : list A) k s, nth_error l k = Some s -> firstn (S k) l = firstn k l ++ [s].
Proof. induction l as [|x l IH]; intros [|k] s H; try discriminate; cbn in *; [congruence|]. rewrite (IH k s H). reflexivity. Qed.

Lemma address_next : forall r p fin k lab m o, pass1_program r p = Some fin ->
  nth_error (body p) k = Some (SInstr lab m o) ->
  exists a e md op size, address r p k = Some a /\ labels_at r p k = Some e /\
    denoted_mode m o (value_of (with_own lab a e) o) = Some md /\
    has_mode r m md (match value_of (with_own lab a e) o with Some _ => true | None => false end) = Some (op, size) /\
    address r p (S k) = Some (a + size).
Proof.
  intros r p fin k lab m o E K. destruct (pass1_at _ _ _ _ _ K E) as (st & st' & E1 & E2 & _).
  destruct (pass1_stmt_instr _ _ _ _ _ _ E2) as (md & op & size & D & M & _ & ->).
  exists (p1_addr st), (p1_env st), md, op, size. unfold address, labels_at. rewrite E1. cbn [option_map].
  do 4 (split; [auto; fail|]). unfold address. rewrite (firstn_next _ _ _ _ K).
  destruct (body_split _ _ _ K) as (_ & N & Ns).
  unfold pass1_program in *. rewrite pass1_app, E1 by exact N. rewrite pass1_cons by exact Ns. rewrite E2. reflexivity.
Qed.

Lemma count_firstn : forall l k s, nth_error l k = Some s ->
  count is_instr (firstn (S k) l) = count is_instr (firstn k l) + if is_instr s then 1 else 0.
Proof.
  intros l k s H. rewrite (firstn_next _ _ _ _ H). unfold count. rewrite filter_app, app_length. cbn [filter].
  destruct (is_instr s); cbn [List.length]; lia.
Qed.

Lemma count_le : forall l j k, (j <= k)%nat -> count is_instr (firstn j l) <= count is_instr (firstn k l).
Proof.
  intros l j k H. replace (firstn j l) with (firstn j (firstn k l)).
  2:{ rewrite firstn_firstn. f_equal. lia. }
  rewrite <- (firstn_skipn j (firstn k l)) at 2. unfold count. rewrite filter_app, app_length. lia.
Qed.

(** the number of instructions in front identifies an instruction *)
Lemma count_lt : forall l j k s, (j < k)%nat -> nth_error l j = Some s -> is_instr s = true ->
  count is_instr (firstn j l) < count is_instr (firstn k l).
Proof.
  intros l j k s H N I. pose proof (count_firstn _ _ _ N) as A. rewrite I in A. pose proof (count_le l (S j) k H). lia.
Qed.

Lemma count_find : forall l i, (i < List.length (filter is_instr l))%nat ->
  exists k s, nth_error l k = Some s /\ is_instr s = true /\ count is_instr (firstn k l) = Z.of_nat i.
Proof.
  induction l as [|x l IH]; intros i H; [cbn in H; lia|]. cbn [filter] in H. destruct (is_instr x) eqn:Ix.
  - destruct i as [|i]; [exists 0%nat, x; auto|]. cbn [List.length] in H.
    destruct (IH i) as (k & s & A & B & C); [lia|]. exists (S k), s. do 2 (split; [assumption|]).
    cbn [firstn]. unfold count in *. cbn [filter]. rewrite Ix. cbn [List.length]. lia.
  - destruct (IH i H) as (k & s & A & B & C). exists (S k), s. do 2 (split; [assumption|]).
    cbn [firstn]. unfold count in *. cbn [filter]. rewrite Ix. exact C.
Qed.

(** what a placed instruction says of its statement *)
Section Placed.
  Variable p : list stmt.
  Variable fin : dstate.
  Variable code : list (Z * list Z).
  Hypothesis HD : diagnose AsBuilt p = DOk fin code.


  Lemma placed_at : forall k s, nth_error (body p) k = Some s -> is_instr s = true ->
    exists pl, nth_error (d_done fin) (instr_number p k) = Some pl /\
      (forall x, covers pl x <-> spans AsBuilt p k x) /\ (is_open pl = true <-> forward AsBuilt p k) /\
      address AsBuilt p k = Some (it_addr (pl_item pl)) /\ address AsBuilt p (S k) = Some (pl_end pl).
  Proof.
    intros k s K I. destruct s as [| | | | |lab m o]; try discriminate.
    destruct (instr_placed _ _ _ _ _ _ _ _ HD K) as (sd & md & op & size & pl & A & B & C & D & E & F & G & H & J).
    exists pl. split; [exact F|].
    destruct (state_after_pass1 _ _ _ A) as (P & _).
    assert (Ad : address AsBuilt p k = Some (d_addr sd)) by (unfold address; rewrite P; reflexivity).
    assert (Le : labels_at AsBuilt p k = Some (d_env sd)) by (unfold labels_at; rewrite P; reflexivity).
    pose proof (diagnose_reference AsBuilt p) as DR. rewrite HD in DR. destruct DR as (_ & P1 & _).
    destruct (address_next _ _ _ _ _ _ _ P1 K) as (a & e & md' & op' & size' & A1 & A2 & A3 & A4 & A5).
    rewrite Ad in A1. injection A1 as <-. rewrite Le in A2. injection A2 as <-.
    rewrite D in A3. injection A3 as <-. rewrite E in A4. injection A4 as <- <-.
    unfold covers, pl_end. rewrite H. cbn [it_addr it_size]. split; [|split; [|auto]].
    - intro x. unfold spans. split.
      + intro K2. exists lab, m, o, (d_addr sd), (d_addr sd + size). auto.
      + intros (l' & m' & o' & a & b & _ & Q1 & Q2 & Q3). rewrite Ad in Q1. rewrite A5 in Q2. injection Q1 as <-. injection Q2 as <-. exact Q3.
    - rewrite J. unfold forward. split.
      + intro U. exists lab, m, o, (d_addr sd), (d_env sd). auto.
      + intros (l' & m' & o' & a & e & Q0 & Q1 & Q2 & Q3). rewrite K in Q0. injection Q0 as <- <- <-.
        rewrite Ad in Q1. rewrite Le in Q2. injection Q1 as <-. injection Q2 as <-. exact Q3.
  Qed.

  Lemma done_length : List.length (d_done fin) = List.length (filter is_instr (body p)).
  Proof.
    destruct (diagnose_state _ _ _ _ _ _ HD) as [A _]. destruct (accepts_done _ _ _ _ _ A) as (more & E & L).
    cbn [d_done app] in E. rewrite E. unfold zlen, count in L. lia.
  Qed.

  Lemma placed_index : forall i pl, nth_error (d_done fin) i = Some pl -> exists k s,
    nth_error (body p) k = Some s /\ is_instr s = true /\ instr_number p k = i.
  Proof.
    intros i pl H. destruct (count_find (body p) i) as (k & s & A & B & C).
    { rewrite <- done_length. apply nth_error_Some. congruence. }
    exists k, s. do 2 (split; [assumption|]). unfold instr_number. rewrite C. lia.
  Qed.

  Lemma pos_lt : forall j k s, nth_error (body p) j = Some s -> is_instr s = true -> (instr_number p j < instr_number p k)%nat <-> (j < k)%nat.
  Proof.
    intros j k s N I. unfold instr_number. split; intro H.
    - destruct (Nat.lt_ge_cases j k) as [L|L]; [exact L|]. pose proof (count_le (body p) k j L). lia.
    - pose proof (count_lt (body p) j k s H N I).
      assert (0 <= count is_instr (firstn j (body p))) by (unfold count; lia). lia.
  Qed.

  (** the zero bytes *)
  Lemma scratch_index : forall l q x, scratch q l x -> exists i pl, nth_error l i = Some pl /\ is_open pl = true /\
    exists z, match i with O => z = q | S i' => exists pl', nth_error l i' = Some pl' /\ z = pl_end pl' end /\
      z <= x < z + it_size (pl_item pl).
  Proof.
    induction l as [|pl l IH]; intros q x H; [destruct H|]. destruct H as [[O H]|H].
    - exists 0%nat, pl. split; [reflexivity|]. split; [exact O|]. exists q. auto.
    - destruct (IH _ _ H) as (i & pl' & A & B & z & C & D). exists (S i), pl'. split; [exact A|]. split; [exact B|].
      exists z. split; [|exact D]. destruct i as [|i]; [exists pl; auto|exact C].
  Qed.

  Lemma last_end_pos : forall k s q, nth_error (body p) k = Some s -> is_instr s = true ->
    match instr_number p k with O => q = 0 | S i => exists pl, nth_error (d_done fin) i = Some pl /\ q = pl_end pl end ->
    last_end AsBuilt p k q.
  Proof.
    intros k s q K I H. destruct (instr_number p k) as [|i] eqn:Ep.
    - left. split; [exact H|]. intros j s' Hj N. destruct (is_instr s') eqn:I'; [|reflexivity]. exfalso.
      apply (pos_lt j k s' N I') in Hj. lia.
    - destruct H as (pl & N & ->). destruct (placed_index _ _ N) as (j & sj & A & B & C).
      destruct (placed_at j sj A B) as (pl' & N' & _ & _ & _ & Q). rewrite C, N in N'. injection N' as <-.
      right. exists j, sj. split; [apply (pos_lt j k sj A B); lia|]. do 2 (split; [assumption|]). split; [exact Q|].
      intros i' s' [H1 H2] N'. destruct (is_instr s') eqn:I'; [|reflexivity]. exfalso.
      apply (pos_lt i' k s' N' I') in H2. apply (pos_lt j i' sj A B) in H1. lia.
  Qed.

  Hypothesis H16 : Forall stmt16 p.

  Lemma good_done : Forall good_placed (d_done fin) /\ Forall (fun q => exists bs, final_bytes (d_env fin) q bs) (d_done fin) /\
    code_of (d_env fin) (d_done fin) = code.
  Proof.
    pose proof (diag_from_good p 1 (mkD 0 [] []) (Forall_impl _ stmt16_ok H16) good_init) as Gd.
    fold (diagnose AsBuilt p) in Gd. rewrite HD in Gd.
    pose proof (diagnose_reference AsBuilt p) as DR. rewrite HD in DR. destruct DR as (_ & _ & Sd & _).
    destruct (diagnose_state _ _ _ _ _ _ HD) as [_ C].
    destruct (accepted_good _ _ Gd Sd C) as (A & B & _ & _ & E). auto.
  Qed.

  Lemma code_at : forall l i pl bs, nth_error l i = Some pl -> final_bytes (d_env fin) pl bs ->
    nth_error (code_of (d_env fin) l) i = Some (it_addr (pl_item pl), it_opcode (pl_item pl) :: bs).
  Proof.
    induction l as [|x l IH]; intros [|i] pl bs N F; try discriminate; cbn [nth_error code_of] in *.
    - injection N as ->. destruct F as [F _]. destruct (pl_bytes pl); [subst|rewrite F]; reflexivity.
    - apply IH; assumption.
  Qed.

  (** the bytes of a forward reference are kept unless a later one covers them *)
  Theorem forward_kept : forall k a bs x, forward AsBuilt p k -> spans AsBuilt p k x ->
    nth_error code (instr_number p k) = Some (a, bs) ->
    (forall j, (k < j)%nat -> forward AsBuilt p j -> ~ spans AsBuilt p j x) ->
    a <= x /\ byte_at (writes AsBuilt fin) x = nth_error bs (Z.to_nat (x - a)) /\ (Z.to_nat (x - a) < List.length bs)%nat.
  Proof.
    intros k a bs x HF HS HC HN. pose proof HF as (lab & m & o & a0 & e & K & _).
    destruct (placed_at k _ K eq_refl) as (pl & N & Cv & Op & Ad & _).
    destruct good_done as (G & F & Ec). pose proof F as F0. rewrite Forall_forall in F0.
    destruct (F0 pl (nth_error_In _ _ N)) as (b & Fb).
    rewrite <- Ec, (code_at _ _ _ _ N Fb) in HC. injection HC as <- <-.
    apply Cv in HS. apply Op in HF. destruct (nth_error_split _ _ N) as (l1 & l2 & E & L).
    split; [unfold covers in HS; lia|]. split; [eapply open_kept; eauto|].
    2:{ destruct Fb as [_ Fb]. unfold covers, pl_end in HS. unfold zlen in Fb. cbn [List.length]. lia. }
    intros q Hq Oq Cq. destruct (In_nth_error _ _ Hq) as (i & Hi).
    assert (Ni : nth_error (d_done fin) (S (instr_number p k + i)) = Some q).
    { rewrite E, nth_error_app2 by lia. replace (S (instr_number p k + i) - List.length l1)%nat with (S i) by lia. exact Hi. }
    destruct (placed_index _ _ Ni) as (j & sj & A & B & C).
    destruct (placed_at j sj A B) as (q' & N' & Cv' & Op' & _). rewrite C, Ni in N'. injection N' as <-.
    apply (HN j); [apply (pos_lt k j _ K eq_refl); lia|apply Op', Oq|apply Cv', Cq].
  Qed.

  (** the bytes of any instruction *)
  Theorem bytes_kept : forall k a bs x, spans AsBuilt p k x ->
    nth_error code (instr_number p k) = Some (a, bs) ->
    (forall j, (k < j)%nat -> ~ spans AsBuilt p j x) ->
    (forall j, (k < j)%nat -> ~ zero_span AsBuilt p j x) ->
    (forall j, (j < k)%nat -> forward AsBuilt p j -> ~ spans AsBuilt p j x) ->
    a <= x /\ byte_at (writes AsBuilt fin) x = nth_error bs (Z.to_nat (x - a)) /\ (Z.to_nat (x - a) < List.length bs)%nat.
  Proof.
    intros k a bs x HS HC HN HZ HB. pose proof HS as (lab & m & o & a0 & b0 & K & _).
    destruct (placed_at k _ K eq_refl) as (pl & N & Cv & Op & Ad & Ad').
    destruct (is_open pl) eqn:O.
    { eapply forward_kept; eauto. apply Op. reflexivity. }
    destruct good_done as (G & F & Ec). pose proof F as F0. rewrite Forall_forall in F0.
    destruct (F0 pl (nth_error_In _ _ N)) as (b & Fb).
    rewrite <- Ec, (code_at _ _ _ _ N Fb) in HC. injection HC as <- <-.
    apply Cv in HS. destruct (nth_error_split _ _ N) as (l1 & l2 & E & L).
    assert (Later : forall i q, nth_error l2 i = Some q -> exists j sj, nth_error (body p) j = Some sj /\ is_instr sj = true /\ (k < j)%nat /\
      instr_number p j = S (instr_number p k + i) /\ (forall y, covers q y <-> spans AsBuilt p j y) /\ (is_open q = true <-> forward AsBuilt p j) /\
      address AsBuilt p j = Some (it_addr (pl_item q)) /\ address AsBuilt p (S j) = Some (pl_end q)).
    { intros i q Hi. assert (Ni : nth_error (d_done fin) (S (instr_number p k + i)) = Some q).
      { rewrite E, nth_error_app2 by lia. replace (S (instr_number p k + i) - List.length l1)%nat with (S i) by lia. exact Hi. }
      destruct (placed_index _ _ Ni) as (j & sj & A & B & C).
      destruct (placed_at j sj A B) as (q' & N' & Rest). rewrite C, Ni in N'. injection N' as <-.
      exists j, sj. do 2 (split; [assumption|]). split; [apply (pos_lt k j _ K eq_refl); lia|]. split; [exact C|exact Rest]. }
    split; [unfold covers in HS; lia|]. split; [eapply closed_kept; eauto|].
    4:{ destruct Fb as [_ Fb]. unfold covers, pl_end in HS. unfold zlen in Fb. cbn [List.length]. lia. }
    - intros (q & Hq & Cq). destruct (In_nth_error _ _ Hq) as (i & Hi).
      destruct (Later _ _ Hi) as (j & sj & A & B & C & D & Ev & _). apply (HN j C), Ev, Cq.
    - intro Sc. destruct (scratch_index _ _ _ Sc) as (i & q & Hi & Oq & z & Hz & Lz).
      destruct (Later _ _ Hi) as (j & sj & A & B & C & D & Ev & Of & Ad1 & Ad2). apply (HZ j C).
      split; [apply Of, Oq|]. exists z, (it_addr (pl_item q)), (pl_end q). split.
      2:{ split; [exact Ad1|]. split; [exact Ad2|]. unfold pl_end. lia. }
      apply (last_end_pos j sj z A B). rewrite D. destruct i as [|i].
      + subst z. exists pl. rewrite Nat.add_0_r. auto.
      + destruct Hz as (q' & Hq' & ->). exists q'. split; [|reflexivity].
        rewrite E, nth_error_app2 by lia. replace (instr_number p k + S i - List.length l1)%nat with (S i) by lia. exact Hq'.
    - intros q Hq Oq Cq. destruct (In_nth_error _ _ Hq) as (i & Hi).
      assert (Li : (i < List.length l1)%nat) by (apply nth_error_Some; congruence).
      assert (Ni : nth_error (d_done fin) i = Some q) by (rewrite E, nth_error_app1 by lia; exact Hi).
      destruct (placed_index _ _ Ni) as (j & sj & A & B & C).
      destruct (placed_at j sj A B) as (q' & N' & Cv' & Op' & _). rewrite C, Ni in N'. injection N' as <-.
      apply (HB j); [apply (pos_lt j k sj A B); lia|apply Op', Oq|apply Cv', Cq].
  Qed.
End Placed.

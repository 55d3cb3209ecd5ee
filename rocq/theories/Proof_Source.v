(** Proof_Source.v -- how the source file is cut into lines, and which lines make the
    behaviour undefined. *)
From Verif Require Import Base Proof_Base Model_Opcode Model_Error Model_Lexer Model_SymbolTable
  Model_Parser Model_ForwardRef Model_Generator Model_Main Spec_Isa Spec_Text Spec_Report
  Proof_Chars Proof_Error Proof_Lex1 Proof_Lex2 Proof_Core Proof_Run.

(** ** fgets on lines that fit *)
Lemma fgets_line : forall l n rest, ~ In ch_nl l -> (List.length l < n)%nat ->
  fgets n (l ++ ch_nl :: rest) = (l ++ [ch_nl], rest).
Proof.
  induction l as [|c l IH]; intros n rest H L; destruct n as [|n]; cbn [List.length] in L; try lia.
  - reflexivity.
  - cbn [app fgets]. destruct (Ascii.eqb c ch_nl) eqn:E.
    + apply Ascii.eqb_eq in E. subst. exfalso. apply H. left; reflexivity.
    + rewrite IH; [reflexivity| |lia]. intro K. apply H. right; exact K.
Qed.

Lemma fgets_last : forall l n, ~ In ch_nl l -> (List.length l <= n)%nat -> fgets n l = (l, []).
Proof.
  induction l as [|c l IH]; intros n H L; destruct n as [|n]; cbn [List.length] in L; try lia; try reflexivity.
  cbn [fgets]. destruct (Ascii.eqb c ch_nl) eqn:E.
  - apply Ascii.eqb_eq in E. subst. exfalso. apply H. left; reflexivity.
  - rewrite IH; [reflexivity| |lia]. intro K. apply H. right; exact K.
Qed.

Lemma fgets_cons : forall n c s, c <> ch_nl ->
  fgets (S n) (c :: s) = (c :: fst (fgets n s), snd (fgets n s)).
Proof.
  intros n c s H. cbn [fgets]. apply Ascii.eqb_neq in H. rewrite H. destruct (fgets n s); reflexivity.
Qed.

Lemma chunks_fuel_more : forall k s, (List.length s <= k)%nat -> chunks_fuel k s = chunks s.
Proof.
  intros k s. unfold chunks. remember (List.length s) as n eqn:E. assert (H : (List.length s <= n)%nat) by lia. clear E.
  revert k s H. induction n as [|n IH]; intros k s H L.
  - destruct s; [|cbn in H; lia]. destruct k; reflexivity.
  - destruct s as [|c s]; [destruct k; reflexivity|].
    destruct k as [|k]; [lia|]. cbn [chunks_fuel].
    destruct (fgets (MAX_BUFFER_SIZE - 1) (c :: s)) as [l r] eqn:F.
    change (MAX_BUFFER_SIZE - 1)%nat with 127%nat in F.
    apply fgets_progress in F. destruct F as [_ F]. cbn [List.length] in H, L.
    f_equal. rewrite IH by lia. reflexivity.
Qed.

Lemma chunks_cons : forall s l r, s <> [] -> fgets 127 s = (l, r) -> chunks s = l :: chunks r.
Proof.
  intros s l r N F. destruct s as [|c s]; [congruence|]. unfold chunks at 1. cbn [List.length chunks_fuel].
  change (MAX_BUFFER_SIZE - 1)%nat with 127%nat. rewrite F. f_equal. apply chunks_fuel_more.
  destruct (fgets_progress _ _ _ _ _ F). lia.
Qed.

Lemma chunks_join : forall lines rest, Forall fits lines ->
  chunks (join lines ++ rest) = map (fun l => l ++ [ch_nl]) lines ++ chunks rest.
Proof.
  induction lines as [|l lines IH]; intros rest F; [reflexivity|].
  inversion F as [|? ? [L N] F']; subst. unfold join. cbn [map List.concat]. fold (join lines).
  rewrite <- !app_assoc. cbn [app].
  rewrite (chunks_cons _ (l ++ [ch_nl]) (join lines ++ rest)).
  - rewrite IH by assumption. reflexivity.
  - destruct l; discriminate.
  - apply fgets_line; [exact N|lia].
Qed.

Lemma chunks_source : forall lines src, source_of lines src -> Forall2 read_as lines (chunks src).
Proof.
  intros lines src [F [-> |(front & last & -> & Nl & ->)]].
  - rewrite <- (app_nil_r (join lines)), chunks_join by exact F. cbn. rewrite app_nil_r.
    clear F. induction lines; cbn; constructor; auto. left; reflexivity.
  - apply Forall_app in F. destruct F as [F1 F2]. inversion F2 as [|? ? [L N] _]; subst.
    rewrite chunks_join by exact F1. apply Forall2_app.
    + clear - front. induction front; cbn; constructor; auto. left; reflexivity.
    + rewrite (chunks_cons last last []); auto.
      * cbn. constructor; [right; reflexivity|constructor].
      * apply fgets_last; [exact N|lia].
Qed.

Lemma cstring_plain : forall s, ~ In ch_nul s -> cstring s = s.
Proof.
  induction s as [|c s IH]; intro H; [reflexivity|]. cbn [cstring].
  destruct (Ascii.eqb c ch_nul) eqn:E.
  - apply Ascii.eqb_eq in E. subst. exfalso. apply H. left; reflexivity.
  - f_equal. apply IH. intro K. apply H. right; exact K.
Qed.

Lemma cstring_split : forall s, exists t, s = cstring s ++ t /\ ends t /\ ~ In ch_nul (cstring s).
Proof.
  induction s as [|c s IH]; [exists []; cbn; auto|]. cbn [cstring].
  destruct (Ascii.eqb c ch_nul) eqn:E.
  - apply Ascii.eqb_eq in E. subst. exists (ch_nul :: s). cbn. unfold line_end. auto 8.
  - destruct IH as (t & E1 & E2 & E3). exists t. cbn [app]. split; [congruence|]. split; [exact E2|].
    intros [K|K]; [subst; rewrite Ascii.eqb_refl in E; discriminate|exact (E3 K)].
Qed.

Lemma cstring_prefix : forall s, exists t, s = cstring s ++ t.
Proof. intro s. destruct (cstring_split s) as (t & E & _). eauto. Qed.

(** ** Concatenation of the chunks *)
Lemma chunks_concat : forall src, List.concat (chunks src) = src.
Proof.
  intro src. unfold chunks. remember (List.length src) as n eqn:E.
  assert (H : (List.length src <= n)%nat) by lia. clear E.
  revert src H. induction n as [|n IH]; intros s H.
  - destruct s; [reflexivity|cbn in H; lia].
  - destruct s as [|c s]; [reflexivity|]. cbn [chunks_fuel].
    destruct (fgets (MAX_BUFFER_SIZE - 1) (c :: s)) as [l r] eqn:F.
    pose proof (fgets_length _ _ _ _ F) as [E _].
    change (MAX_BUFFER_SIZE - 1)%nat with 127%nat in F. apply fgets_progress in F. destruct F as [_ F].
    cbn [List.length] in H. cbn [List.concat]. rewrite IH by lia. symmetry. exact E.
Qed.

Lemma lines_of_in : forall src line c, In line (lines_of src) -> In c line -> In c src.
Proof.
  intros src line c Hl Hc. unfold lines_of in Hl. apply in_map_iff in Hl. destruct Hl as (ch & <- & Hch).
  rewrite <- (chunks_concat src). apply in_concat. exists ch. split; [exact Hch|].
  destruct (cstring_prefix ch) as (t & E). rewrite E. apply in_or_app. left; exact Hc.
Qed.

(** ** Where the undefined behaviour comes from *)
Lemma word_char_not_semi : forall c, word_char c -> c <> ";"%char.
Proof. intros c H E. subst. destruct H as [[H|H]|[H|H]]; vm_compute in H; try discriminate; destruct H; try congruence; lia. Qed.

Lemma upper_inv_semi : forall c, upper c = c \/ letter c.
Proof.
  intro c. unfold upper. destruct ((97 <=? code c) && (code c <=? 122)) eqn:E; [right|left; reflexivity].
  apply andb_true_iff in E. destruct E as [E1 E2]. apply Z.leb_le in E1. apply Z.leb_le in E2. right. lia.
Qed.

Lemma letter_not_semi : forall c, letter c -> c <> ";"%char.
Proof. intros c H. apply word_char_not_semi. left; exact H. Qed.

Lemma map_upper_chars : forall w s, map upper w = s -> ~ In ";"%char s -> ~ In ";"%char w.
Proof.
  intros w s <- H K. apply H. apply in_map_iff. exists ";"%char. split; [reflexivity|exact K].
Qed.

Lemma word_no_semi : forall lit w t, word lit w t -> ~ In ";"%char w.
Proof.
  intros lit w t H. destruct H as [w t (c & cs & -> & Hc & Hcs) _ _|w n v (b & ds & -> & Hn) _|w d Hd].
  - intros [E|E]; [apply (letter_not_semi c Hc); auto|].
    rewrite Forall_forall in Hcs. exact (word_char_not_semi _ (Hcs _ E) eq_refl).
  - intro K. apply in_app_or in K. destruct K as [K|K].
    + destruct b; cbn in K; try tauto; destruct K as [K|[]]; discriminate.
    + pose proof (number_chars _ _ _ Hn) as F. rewrite Forall_forall in F.
      exact (word_char_not_semi _ (F _ K) eq_refl).
  - destruct Hd as [Hd|Hd|Hd|Hd]; apply (map_upper_chars _ _ Hd); cbn; intuition discriminate.
Qed.

Lemma punct_no_semi : forall c t, punct c t -> c <> ";"%char.
Proof. intros c t [H|[H|[H|[H|[H|H]]]]]; injection H as -> _; discriminate. Qed.

Lemma Reads_no_comment : forall lit first off s l f' o' s', Reads lit first off s l f' o' s' ->
  exists pre, s = pre ++ s' /\ ~ In ";"%char pre.
Proof.
  intros lit first off s l f' o' s' H. induction H as
    [|first off c s l f' o' s' Hb HR (pre & -> & N)
     |first off c t s l f' o' s' Hp HR (pre & -> & N)
     |first off w t s l f' o' s' Hw _ HR (pre & -> & N)
     |off w name s l f' o' s' Hw HR (pre & -> & N)].
  - exists []. auto.
  - exists (c :: pre). split; [reflexivity|]. intros [E|E]; [|exact (N E)]. subst. destruct Hb; discriminate.
  - exists (c :: pre). split; [reflexivity|]. intros [E|E]; [|exact (N E)]. apply (punct_no_semi _ _ Hp E).
  - exists (w ++ pre). split; [rewrite <- app_assoc; reflexivity|]. intro K. apply in_app_or in K.
    destruct K as [K|K]; [exact (word_no_semi _ _ _ Hw K)|exact (N K)].
  - exists (w ++ ":"%char :: pre). split; [rewrite <- app_assoc; reflexivity|]. intro K. apply in_app_or in K.
    destruct K as [K|[K|K]]; [exact (word_no_semi _ _ _ Hw K)|discriminate|exact (N K)].
Qed.

Lemma LexUndefined_high : forall line, LexUndefined line -> high_in_code line.
Proof.
  intros line (toks & f & o & s & R & _ & H).
  destruct (Reads_no_comment _ _ _ _ _ _ _ _ R) as (pre & -> & N).
  destruct H as [c s H|w c s (c0 & cs & -> & H0 & Hs) _ H|w c s Hw _ H].
  - exists pre, c, s. auto.
  - exists (pre ++ c0 :: cs), c, s. split; [rewrite <- app_assoc; reflexivity|]. split; [|exact H].
    intro K. apply in_app_or in K. destruct K as [K|[K|K]]; [exact (N K)|exact (letter_not_semi _ H0 K)|].
    rewrite Forall_forall in Hs. exact (word_char_not_semi _ (Hs _ K) eq_refl).
  - exists (pre ++ "."%char :: w), c, s. split; [rewrite <- app_assoc; reflexivity|]. split; [|exact H].
    intro K. apply in_app_or in K. destruct K as [K|[K|K]]; [exact (N K)|discriminate|].
    rewrite Forall_forall in Hw. exact (letter_not_semi _ (Hw _ K) eq_refl).
Qed.

Lemma close_not_undef : forall c, close c <> FinUndef.
Proof. intro c. unfold close. destruct (finish _ _ _); discriminate. Qed.

Lemma Run_undef_line : forall lines c r, Run lines c r -> r = FinUndef -> exists line, In line lines /\ LexUndefined line.
Proof.
  intros lines c r H. induction H; intro E; try discriminate; try (exfalso; exact (close_not_undef _ E)).
  - destruct (IHRun E) as (l & Hl & U). exists l. split; [right|]; auto.
  - exists line. split; [left; reflexivity|assumption].
Qed.

Lemma Run_silent_line : forall lines c r f, Run lines c r -> r = FinSilent f ->
  exists line, In line lines /\ TooManyTokens wr line.
Proof.
  intros lines c r f H. induction H; intro E; try discriminate;
    try (exfalso; unfold close in E; destruct (finish _ _ _) in E; discriminate E).
  - destruct (IHRun E) as (l & Hl & U). exists l. split; [right|]; auto.
  - exists line. split; [left; reflexivity|assumption].
Qed.

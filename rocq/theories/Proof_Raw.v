(** Proof_Raw.v -- the functions of Model_Raw.v, on arrays of bytes, do what the functions of Model_Lexer.v, Model_Error.v and
    Model_ForwardRef.v do on the strings the arrays hold. *)
From Verif Require Import Base Model_Opcode Model_Error Model_Lexer Model_SymbolTable Model_Parser Model_ForwardRef
  Model_Generator Model_Main Model_Raw.

(** ** Strings in arrays *)
Definition str_at (a : mem) (off : nat) (s : text) : Prop :=
  exists pre junk, a = pre ++ s ++ ch_nul :: junk /\ List.length pre = off /\ ~ In ch_nul s.

Lemma nul_neq : forall c, Ascii.eqb c ch_nul = false -> c <> ch_nul.
Proof. intros c H E. subst c. rewrite Ascii.eqb_refl in H. discriminate H. Qed.

Lemma str_at_hdc : forall a off s, str_at a off s -> rd a off = Ret (hdc s).
Proof.
  intros a off s (pre & junk & E & L & N). unfold rd. subst a off.
  rewrite nth_error_app2 by lia. rewrite Nat.sub_diag. destruct s; reflexivity.
Qed.

Lemma str_at_tl : forall a off c s, str_at a off (c :: s) -> str_at a (S off) s.
Proof.
  intros a off c s (pre & junk & E & L & N). exists (pre ++ [c]), junk.
  split; [|split].
  - rewrite E, <- app_assoc. reflexivity.
  - rewrite app_length. cbn [List.length]. lia.
  - intro H. apply N. right. exact H.
Qed.

Lemma str_at_skip : forall n a off s, str_at a off s -> (n <= List.length s)%nat -> str_at a (off + n) (skipn n s).
Proof.
  induction n as [|n IH]; intros a off s H L.
  - rewrite Nat.add_0_r. exact H.
  - destruct s as [|c s]; [cbn [List.length] in L; lia|]. cbn [skipn].
    replace (off + S n)%nat with (S off + n)%nat by lia.
    apply IH; [exact (str_at_tl _ _ _ _ H)|cbn [List.length] in L; lia].
Qed.

Lemma str_at_nonul : forall a off s c, str_at a off s -> In c s -> c <> ch_nul.
Proof. intros a off s c (_ & _ & _ & _ & N) I E. subst c. exact (N I). Qed.

Lemma str_at_length : forall a off s, str_at a off s -> (off + List.length s < List.length a)%nat.
Proof.
  intros a off s (pre & junk & E & L & N). subst a off. rewrite !app_length. cbn [List.length]. lia.
Qed.

Lemma cstring_nonul : forall s, ~ In ch_nul (cstring s).
Proof.
  induction s as [|c s IH]; cbn [cstring]; [intros []|].
  destruct (Ascii.eqb c ch_nul) eqn:E; [intros []|].
  intros [H|H]; [exact (nul_neq _ E H)|exact (IH H)].
Qed.

Lemma cstring_app : forall s junk, ~ In ch_nul s -> cstring (s ++ ch_nul :: junk) = s.
Proof.
  induction s as [|c s IH]; intros junk N; cbn [app cstring]; [reflexivity|].
  destruct (Ascii.eqb_spec c ch_nul) as [->|_]; [exfalso; apply N; left; reflexivity|].
  rewrite IH; [reflexivity|]. intro H. apply N. right. exact H.
Qed.

Lemma str_at_cstring : forall a s, str_at a 0 s -> cstring a = s.
Proof.
  intros a s (pre & junk & E & L & N). destruct pre; [|discriminate L]. subst a. apply cstring_app. exact N.
Qed.

Lemma nul_str_at : forall a, In ch_nul a -> str_at a 0 (cstring a).
Proof.
  intros a H. exists [], (skipn (S (List.length (cstring a))) a). split; [|split; [reflexivity|apply cstring_nonul]].
  induction a as [|c a IH]; [destruct H|]. cbn [cstring].
  destruct (Ascii.eqb_spec c ch_nul) as [->|D]; [reflexivity|].
  destruct H as [H|H]; [destruct (D H)|]. cbn [app List.length skipn] in *. rewrite <- (IH H). reflexivity.
Qed.

Lemma str_at_in : forall a off s, str_at a off s -> In ch_nul a.
Proof.
  intros a off s (pre & junk & E & _ & _). subst a. apply in_or_app. right. apply in_or_app. right. left. reflexivity.
Qed.

Lemma lit_at : forall s, ~ In ch_nul (T s) -> str_at (lit s) 0 (T s).
Proof. intros s N. exists [], []. split; [reflexivity|split; [reflexivity|exact N]]. Qed.

Lemma str_at_prefix : forall a s, str_at a 0 s -> exists junk, a = s ++ ch_nul :: junk.
Proof. intros a s (pre & junk & E & L & _). destruct pre; [|discriminate L]. exists junk. exact E. Qed.

(** ** <string.h> *)
Lemma strlen_loop_at : forall s fuel a i n, str_at a (i + n) s -> (List.length s < fuel)%nat ->
  strlen_loop fuel a i n = Ret (n + List.length s)%nat.
Proof.
  induction s as [|c s IH]; intros fuel a i n H F; (destruct fuel as [|k]; [lia|]); cbn [strlen_loop];
    rewrite (str_at_hdc _ _ _ H); cbn [bind hdc].
  - rewrite Ascii.eqb_refl. cbn [List.length]. rewrite Nat.add_0_r. reflexivity.
  - assert (D : Ascii.eqb c ch_nul = false).
    { destruct (Ascii.eqb_spec c ch_nul) as [E|_]; [|reflexivity]. destruct (str_at_nonul _ _ _ c H); [left; reflexivity|exact E]. }
    rewrite D. cbn [List.length] in *. rewrite (IH k a i (S n)); [f_equal; lia| |lia].
    replace (i + S n)%nat with (S (i + n)) by lia. exact (str_at_tl _ _ _ _ H).
Qed.

Lemma strlen_at : forall a i s, str_at a i s -> strlen a i = Ret (List.length s).
Proof.
  intros a i s H. unfold strlen. rewrite (strlen_loop_at s); [reflexivity|rewrite Nat.add_0_r; exact H|].
  pose proof (str_at_length _ _ _ H). lia.
Qed.

Lemma strcmp_loop_at : forall s t fuel a b i, str_at a i s -> str_at b i t -> (List.length s < fuel)%nat ->
  strcmp_loop fuel a b i = Ret (text_eqb s t).
Proof.
  induction s as [|c s IH]; intros t fuel a b i H K F; (destruct fuel as [|k]; [lia|]); cbn [strcmp_loop];
    rewrite (str_at_hdc _ _ _ H), (str_at_hdc _ _ _ K); cbn [bind hdc].
  - destruct t as [|d t]; cbn [hdc text_eqb].
    + rewrite Ascii.eqb_refl. cbn [negb]. reflexivity.
    + destruct (Ascii.eqb_spec ch_nul d) as [E|_]; [|reflexivity].
      destruct (str_at_nonul _ _ _ d K); [left; reflexivity|symmetry; exact E].
  - assert (D : Ascii.eqb c ch_nul = false).
    { destruct (Ascii.eqb_spec c ch_nul) as [E|_]; [|reflexivity]. destruct (str_at_nonul _ _ _ c H); [left; reflexivity|exact E]. }
    destruct t as [|d t]; cbn [hdc text_eqb].
    + rewrite D. reflexivity.
    + destruct (Ascii.eqb c d); cbn [negb andb]; [|reflexivity].
      rewrite D. apply IH; [exact (str_at_tl _ _ _ _ H)|exact (str_at_tl _ _ _ _ K)|cbn [List.length] in F; lia].
Qed.

Lemma strcmp_at : forall a b s t, str_at a 0 s -> str_at b 0 t -> strcmp_equal a b = Ret (text_eqb s t).
Proof.
  intros a b s t H K. unfold strcmp_equal. apply strcmp_loop_at; [exact H|exact K|].
  pose proof (str_at_length _ _ _ H). lia.
Qed.

(** ** Copies *)
Lemma upd_split : forall (a : mem) i c, (i < List.length a)%nat -> upd a i c = firstn i a ++ c :: skipn (S i) a.
Proof.
  induction a as [|x a IH]; intros i c L; [cbn [List.length] in L; lia|].
  destruct i as [|i]; [reflexivity|]. cbn [upd firstn skipn app]. rewrite IH; [reflexivity|cbn [List.length] in L; lia].
Qed.

Lemma upd_length : forall (a : mem) i c, List.length (upd a i c) = List.length a.
Proof. induction a as [|x a IH]; intros [|i] c; cbn [upd List.length]; [reflexivity..|]. rewrite IH. reflexivity. Qed.

Lemma skipn_upd : forall (a : mem) i c, (i < List.length a)%nat -> skipn i (upd a i c) = c :: skipn (S i) a.
Proof.
  induction a as [|x a IH]; intros i c L; [cbn [List.length] in L; lia|].
  destruct i as [|i]; [reflexivity|]. cbn [upd skipn]. rewrite IH; [reflexivity|cbn [List.length] in L; lia].
Qed.

Lemma firstn_upd : forall (a : mem) i c, (i < List.length a)%nat -> firstn (S i) (upd a i c) = firstn i a ++ [c].
Proof.
  induction a as [|x a IH]; intros i c L; [cbn [List.length] in L; lia|].
  destruct i as [|i]; [reflexivity|]. cbn [upd]. rewrite firstn_cons, IH by (cbn [List.length] in L; lia). reflexivity.
Qed.

Lemma skipn_upd_after : forall (a : mem) i j c, (i < j)%nat -> skipn j (upd a i c) = skipn j a.
Proof.
  induction a as [|x a IH]; intros i j c L; [reflexivity|].
  destruct j as [|j]; [lia|]. destruct i as [|i]; [reflexivity|]. cbn [upd skipn]. apply IH. lia.
Qed.

Lemma wrb_ok : forall a i c, (i < List.length a)%nat -> wrb a i c = Ret (upd a i c).
Proof. intros a i c L. unfold wrb. destruct (Nat.ltb_spec i (List.length a)); [reflexivity|lia]. Qed.

(** a loop that writes the bytes [cs] one after the other from index [i] on *)
Lemma memcpy_loop_ok : forall cs n i dst src from,
  (forall k, (k < List.length cs)%nat -> rd src (from + i + k) = Ret (nth k cs ch_nul)) -> n = List.length cs ->
  (i + List.length cs <= List.length dst)%nat ->
  memcpy_loop n i dst src from = Ret (firstn i dst ++ cs ++ skipn (i + List.length cs) dst).
Proof.
  induction cs as [|c cs IH]; intros n i dst src from H E L; subst n; cbn [List.length memcpy_loop] in *.
  - rewrite Nat.add_0_r. cbn [app]. rewrite firstn_skipn. reflexivity.
  - pose proof (H 0%nat ltac:(lia)) as H0. rewrite Nat.add_0_r in H0. rewrite H0. cbn [bind nth].
    rewrite wrb_ok by lia. cbn [bind].
    rewrite IH; [| |reflexivity|rewrite upd_length; lia].
    + rewrite firstn_upd by lia. rewrite skipn_upd_after by lia. rewrite <- app_assoc.
      replace (S i + List.length cs)%nat with (i + S (List.length cs))%nat by lia. reflexivity.
    + intros k K. specialize (H (S k) ltac:(lia)). cbn [nth] in H.
      replace (from + S i + k)%nat with (from + i + S k)%nat by lia. exact H.
Qed.

Lemma str_at_nth : forall s a off k, str_at a off s -> (k <= List.length s)%nat -> rd a (off + k) = Ret (nth k s ch_nul).
Proof.
  intros s a off k H L. rewrite (str_at_hdc _ _ _ (str_at_skip k _ _ _ H L)). f_equal.
  clear H. revert k L. induction s as [|c s IH]; intros [|k] L; cbn [List.length] in L; try reflexivity; try lia.
  cbn [skipn nth]. apply IH. lia.
Qed.

Lemma memcpy_string : forall a off s dst n, str_at a off s -> n = List.length s -> (n < List.length dst)%nat ->
  memcpy dst a off n = Ret (s ++ skipn n dst).
Proof.
  intros a off s dst n H E L. subst n. unfold memcpy. rewrite (memcpy_loop_ok s); [reflexivity| |reflexivity|lia].
  intros k K. rewrite Nat.add_0_r. apply str_at_nth; [exact H|lia].
Qed.

Lemma memcpy_string_nul : forall a off s dst n, str_at a off s -> n = S (List.length s) -> (n <= List.length dst)%nat ->
  memcpy dst a off n = Ret (s ++ ch_nul :: skipn n dst).
Proof.
  intros a off s dst n H E L. unfold memcpy.
  assert (E' : n = List.length (s ++ [ch_nul])) by (rewrite app_length; cbn [List.length]; lia).
  rewrite (memcpy_loop_ok (s ++ [ch_nul])); [|intros k K|exact E'|lia].
  - cbn [Nat.add firstn app]. rewrite <- E', <- app_assoc. reflexivity.
  - rewrite Nat.add_0_r. rewrite app_length in K. cbn [List.length] in K. rewrite (str_at_nth s); [|exact H|lia]. f_equal.
    destruct (Nat.ltb_spec k (List.length s)) as [J|J]; [rewrite app_nth1 by exact J; reflexivity|].
    rewrite app_nth2 by exact J. replace (k - List.length s)%nat with 0%nat by lia. apply nth_overflow. exact J.
Qed.

Lemma upper_loop_ok : forall cs n i dst src from,
  (forall k, (k < List.length cs)%nat -> rd src (from + i + k) = Ret (nth k cs ch_nul)) -> n = List.length cs ->
  forallb ctype_ok cs = true -> (i + List.length cs <= List.length dst)%nat ->
  upper_loop n i dst src from = Ret (firstn i dst ++ map toupper cs ++ skipn (i + List.length cs) dst).
Proof.
  induction cs as [|c cs IH]; intros n i dst src from H E C L; subst n; cbn [List.length upper_loop map forallb] in *.
  - rewrite Nat.add_0_r. cbn [app]. rewrite firstn_skipn. reflexivity.
  - apply andb_true_iff in C. destruct C as [C0 C].
    pose proof (H 0%nat ltac:(lia)) as H0. rewrite Nat.add_0_r in H0. rewrite H0. cbn [bind nth].
    rewrite C0. cbn [negb]. rewrite wrb_ok by lia. cbn [bind].
    rewrite IH; [| |reflexivity|exact C|rewrite upd_length; lia].
    + rewrite firstn_upd by lia. rewrite skipn_upd_after by lia. rewrite <- app_assoc.
      replace (S i + List.length cs)%nat with (i + S (List.length cs))%nat by lia. reflexivity.
    + intros k K. specialize (H (S k) ltac:(lia)). cbn [nth] in H.
      replace (from + S i + k)%nat with (from + i + S k)%nat by lia. exact H.
Qed.

(** ** Refinement: where the function on strings returns, the function on arrays returns the same *)
Definition refines {A B : Type} (P : A -> B -> Prop) (raw : M A) (m : M B) : Prop :=
  forall y, m = Ret y -> exists x, raw = Ret x /\ P x y.

Lemma ref_ret : forall (A B : Type) (P : A -> B -> Prop) x y, P x y -> refines P (Ret x) (Ret y).
Proof. intros A B P x y H z E. injection E as <-. exists x. split; [reflexivity|exact H]. Qed.
Lemma ref_bind : forall (A B C D : Type) (P : A -> B -> Prop) (Q : C -> D -> Prop) r m f g,
  refines P r m -> (forall x y, P x y -> refines Q (f x) (g y)) -> refines Q (bind r f) (bind m g).
Proof.
  intros A B C D P Q r m f g H K z E. destruct m as [y|u|]; cbn [bind] in E; try discriminate E.
  destruct (H y eq_refl) as (x & -> & HP). cbn [bind]. exact (K x y HP z E).
Qed.
Lemma ref_undef : forall (A B : Type) (P : A -> B -> Prop) r u, refines P r (Undef u).
Proof. intros A B P r u y E. discriminate E. Qed.
Lemma ref_same : forall (A : Type) (m : M A), refines eq m m.
Proof. intros A m y E. exists y. split; [exact E|reflexivity]. Qed.

(** ** Tokens *)
Definition tok_ok (t : Token) : Prop := List.length (tk_str t) = MAX_TOKEN_STR_LEN /\ In ch_nul (tk_str t).
Definition TR (t u : Token) : Prop := tok_ok t /\ see_token t = u.

Lemma TR_str : forall t u, TR t u -> str_at (tk_str t) 0 (tk_str u).
Proof. intros t u ((_ & N) & <-). cbn [see_token tk_set_str tk_str]. apply nul_str_at. exact N. Qed.
Lemma TR_type : forall t u, TR t u -> tk_type t = tk_type u.
Proof. intros t u (_ & <-). reflexivity. Qed.
Lemma TR_value : forall t u, TR t u -> tk_value t = tk_value u.
Proof. intros t u (_ & <-). reflexivity. Qed.
Lemma TR_loc : forall t u, TR t u -> tk_loc t = tk_loc u.
Proof. intros t u (_ & <-). reflexivity. Qed.
Lemma TR_error : forall t u, TR t u -> tk_error_char t = tk_error_char u.
Proof. intros t u (_ & <-). reflexivity. Qed.
Lemma TR_set_type : forall t u ty, TR t u -> TR (tk_set_type t ty) (tk_set_type u ty).
Proof. intros t u ty (K & <-). split; [exact K|reflexivity]. Qed.
Lemma TR_set_value : forall t u v, TR t u -> TR (tk_set_value t v) (tk_set_value u v).
Proof. intros t u v (K & <-). split; [exact K|reflexivity]. Qed.
Lemma TR_set_error : forall t u o, TR t u -> TR (tk_set_error t o) (tk_set_error u o).
Proof. intros t u v (K & <-). split; [exact K|reflexivity]. Qed.
Lemma TR_set_loc : forall t u o, TR t u -> TR (tk_set_loc t o) (tk_set_loc u o).
Proof. intros t u v (K & <-). split; [exact K|reflexivity]. Qed.
Lemma TR_set_str : forall t u a s, TR t u -> List.length a = MAX_TOKEN_STR_LEN -> str_at a 0 s ->
  TR (tk_set_str t a) (tk_set_str u s).
Proof.
  intros t u a s (_ & <-) L H. split; [split; [exact L|exact (str_at_in _ _ _ H)]|].
  unfold see_token, tk_set_str. cbn [tk_str]. rewrite (str_at_cstring _ _ H). reflexivity.
Qed.

(** reset_token *)
Lemma clear_loop_ok : forall n i a, (i + n <= List.length a)%nat ->
  clear_loop n i a = Ret (firstn i a ++ repeat ch_nul n ++ skipn (i + n) a).
Proof.
  induction n as [|n IH]; intros i a L; cbn [clear_loop repeat].
  - rewrite Nat.add_0_r. cbn [app]. rewrite firstn_skipn. reflexivity.
  - rewrite wrb_ok by lia. cbn [bind]. rewrite IH by (rewrite upd_length; lia).
    rewrite firstn_upd by lia. rewrite skipn_upd_after by lia. rewrite <- app_assoc.
    replace (S i + n)%nat with (i + S n)%nat by lia. reflexivity.
Qed.

Lemma reset_token_ok : forall t u, List.length (tk_str t) = MAX_TOKEN_STR_LEN ->
  exists t', reset_token_raw t = Ret t' /\ TR t' (reset_token u).
Proof.
  intros t u L. unfold reset_token_raw. rewrite clear_loop_ok by lia. cbn [bind].
  eexists. split; [reflexivity|]. split; [split|].
  - cbn [tk_str]. rewrite !app_length, repeat_length, firstn_length, skipn_length, L. cbn. reflexivity.
  - cbn [tk_str firstn app]. apply in_or_app. left. left. reflexivity.
  - reflexivity.
Qed.

Lemma token_strcpy_ok : forall t u a s, TR t u -> str_at a 0 s -> refines TR (token_strcpy_raw t a) (token_strcpy u s).
Proof.
  intros t u a s H K z E. unfold token_strcpy_raw. rewrite (str_at_hdc _ _ _ K). cbn [bind].
  destruct s as [|c s]; cbn [token_strcpy hdc] in *.
  - injection E as <-. rewrite Ascii.eqb_refl. exists t. split; [reflexivity|exact H].
  - destruct (Ascii.eqb_spec c ch_nul) as [D|_]; [destruct (str_at_nonul _ _ _ c K); [left; reflexivity|exact D]|].
    destruct (Nat.ltb_spec (List.length (c :: s)) MAX_TOKEN_STR_LEN) as [L|L]; [|discriminate E]. injection E as <-.
    rewrite (strlen_at _ _ _ K). cbn [bind].
    pose proof (proj1 (proj1 H)) as L64.
    rewrite (memcpy_string_nul _ _ _ _ _ K) by lia. cbn [bind].
    eexists. split; [reflexivity|]. apply TR_set_str; [exact H| |].
    + rewrite app_length. cbn [List.length]. rewrite skipn_length, L64. cbn [List.length] in L. lia.
    + exists [], (skipn (List.length (c :: s) + 1) (tk_str t)). split; [reflexivity|split; [reflexivity|]].
      destruct K as (_ & _ & _ & _ & N). exact N.
Qed.

Lemma toupper_nul : forall c, c <> ch_nul -> toupper c <> ch_nul.
Proof.
  intros c N E. unfold toupper in E. destruct (is_lower c) eqn:L; [|exact (N E)].
  destruct c as [[] [] [] [] [] [] [] []]; vm_compute in L, E; discriminate.
Qed.

Lemma firstn_nth : forall (s : text) n k, (k < n)%nat -> nth k (firstn n s) ch_nul = nth k s ch_nul.
Proof.
  induction s as [|c s IH]; intros [|n] [|k] L; cbn [firstn nth]; try reflexivity; [lia..|]. apply IH. lia.
Qed.

Lemma token_strncpy_ok : forall t u a off s n, TR t u -> str_at a off s ->
  refines TR (token_strncpy_raw t a off n) (token_strncpy u s n).
Proof.
  intros t u a off s n H K z E. unfold token_strncpy in E. unfold token_strncpy_raw.
  destruct (Nat.ltb_spec n MAX_TOKEN_STR_LEN) as [L|L]; cbn [negb] in E; [|discriminate E].
  destruct (Nat.ltb_spec (List.length s) n) as [L2|L2]; [discriminate E|].
  destruct (forallb ctype_ok (firstn n s)) eqn:C; cbn [negb] in E; [|discriminate E]. injection E as <-.
  pose proof (proj1 (proj1 H)) as L64.
  assert (LN : List.length (firstn n s) = n) by (rewrite firstn_length; lia).
  rewrite (upper_loop_ok (firstn n s)); [|intros k J|symmetry; exact LN|exact C|lia].
  - cbn [bind firstn Nat.add app]. rewrite LN.
    assert (LA : List.length (map toupper (firstn n s) ++ skipn n (tk_str t)) = MAX_TOKEN_STR_LEN).
    { rewrite app_length, map_length, skipn_length, LN, L64. lia. }
    rewrite wrb_ok by lia. cbn [bind].
    eexists. split; [reflexivity|]. apply TR_set_str; [exact H|rewrite upd_length; exact LA|].
    assert (LM : List.length (map toupper (firstn n s)) = n) by (rewrite map_length; exact LN).
    exists [], (skipn (S n) (map toupper (firstn n s) ++ skipn n (tk_str t))). split; [|split; [reflexivity|]].
    + rewrite upd_split by lia. rewrite firstn_app, LM, Nat.sub_diag, firstn_O, app_nil_r.
      rewrite firstn_all2 by lia. reflexivity.
    + intro I. apply in_map_iff in I. destruct I as (c & E & I).
      refine (toupper_nul c _ E). apply (str_at_nonul _ _ _ c K). rewrite <- (firstn_skipn n s). apply in_or_app. left. exact I.
  - rewrite Nat.add_0_r. rewrite LN in J. rewrite (str_at_nth s); [|exact K|lia]. rewrite firstn_nth by exact J. reflexivity.
Qed.

(** ** print_error *)
Lemma drop_while_suffix : forall p s, exists k, drop_while p s = skipn k s.
Proof.
  induction s as [|c s (k & IH)]; cbn [drop_while]; [exists 0%nat; reflexivity|].
  destruct (p c); [exists (S k); exact IH|exists 0%nat; reflexivity].
Qed.

Lemma left_over_ok : forall p r fuel a rest, a = rev r ++ rest -> (List.length r < fuel)%nat -> drop_while p r <> [] ->
  left_over fuel p a (Z.of_nat (List.length r) - 1) = Ret (Z.of_nat (List.length (drop_while p r)) - 1).
Proof.
  induction r as [|c r IH]; intros fuel a rest E F D; cbn [drop_while] in *; [destruct (D eq_refl)|].
  destruct fuel as [|k]; [lia|]. cbn [left_over List.length].
  unfold rd_left. destruct (Z.ltb_spec (Z.of_nat (S (List.length r)) - 1) 0) as [B|_]; [lia|].
  replace (Z.to_nat (Z.of_nat (S (List.length r)) - 1)) with (List.length r) by lia.
  cbn [rev] in E. rewrite <- app_assoc in E. cbn [app] in E. unfold rd. rewrite E at 1.
  rewrite nth_error_app2 by (rewrite rev_length; lia). rewrite rev_length, Nat.sub_diag. cbn [nth_error bind].
  destruct (p c).
  - replace (Z.of_nat (S (List.length r)) - 1 - 1) with (Z.of_nat (List.length r) - 1) by lia.
    apply (IH k a (c :: rest)); [exact E|cbn [List.length] in F; lia|exact D].
  - cbn [List.length]. f_equal.
Qed.

Lemma put_bytes_ok : forall cs n i a, (forall k, (k < List.length cs)%nat -> rd a (i + k) = Ret (nth k cs ch_nul)) ->
  n = List.length cs -> put_bytes n i a = Ret cs.
Proof.
  induction cs as [|c cs IH]; intros n i a H E; subst n; cbn [List.length put_bytes] in *; [reflexivity|].
  pose proof (H 0%nat ltac:(lia)) as H0. rewrite Nat.add_0_r in H0. rewrite H0. cbn [bind nth].
  rewrite (IH (List.length cs) (S i)); [reflexivity| |reflexivity].
  intros k K. specialize (H (S k) ltac:(lia)). cbn [nth] in H. replace (S i + k)%nat with (i + S k)%nat by lia. exact H.
Qed.

Lemma put_prefix : forall a s n, str_at a 0 s -> (n <= List.length s)%nat -> put_bytes n 0 a = Ret (firstn n s).
Proof.
  intros a s n H L. apply put_bytes_ok; [|rewrite firstn_length; lia].
  intros k K. rewrite firstn_length in K. rewrite firstn_nth by lia.
  rewrite <- (str_at_nth s a 0 k H) by lia. reflexivity.
Qed.

Lemma rev_skipn_prefix : forall (s : text) k, rev (skipn k (rev s)) = firstn (List.length (skipn k (rev s))) s.
Proof.
  intros s k. rewrite skipn_length, rev_length.
  destruct (Nat.leb_spec k (List.length s)) as [L|L].
  - rewrite skipn_rev, rev_involutive. reflexivity.
  - rewrite skipn_all2 by (rewrite rev_length; lia). replace (List.length s - k)%nat with 0%nat by lia. reflexivity.
Qed.

(** the loops that go to the left from the end of a string *)
Lemma from_the_end : forall p a s, str_at a 0 s -> drop_while p (rev s) <> [] ->
  left_over (S (List.length a)) p a (Z.of_nat (List.length s) - 1) = Ret (Z.of_nat (List.length (drop_while p (rev s))) - 1)
  /\ rev (drop_while p (rev s)) = firstn (List.length (drop_while p (rev s))) s.
Proof.
  intros p a s H D. destruct (str_at_prefix _ _ H) as (junk & E). split.
  - rewrite <- (rev_length s) at 1. apply (left_over_ok p (rev s) _ a (ch_nul :: junk)); [rewrite rev_involutive; exact E| |exact D].
    rewrite rev_length. pose proof (str_at_length _ _ _ H). lia.
  - destruct (drop_while_suffix p (rev s)) as (k & ->). apply rev_skipn_prefix.
Qed.

Lemma drop_while_length : forall p s, (List.length (drop_while p s) <= List.length s)%nat.
Proof. induction s as [|c s IH]; cbn [drop_while List.length]; [lia|]. destruct (p c); cbn [List.length]; lia. Qed.

Definition line_rel (x : option mem) (y : option text) : Prop :=
  match x, y with Some a, Some s => str_at a 0 s | None, None => True | _, _ => False end.

Lemma print_error_ok : forall lraw l code bad file num, line_rel lraw l ->
  refines eq (print_error_raw lraw code bad file num) (print_error l code bad file num).
Proof.
  intros lraw l code bad file num H.
  unfold print_error_raw, print_error.
  destruct lraw as [a|], l as [s|]; cbn [line_rel] in H; try contradiction; try (destruct (error_message code file); apply ref_same).
  destruct (error_message code file) as [msg|]; [|apply ref_same].
  intros z E. rewrite (strlen_at _ _ _ H). cbn [bind]. unfold strip_trailing in E.
  destruct (drop_while is_trailing (rev s)) as [|c r] eqn:D; cbn [bind] in E; [discriminate E|].
  destruct (from_the_end is_trailing a s H) as [E1 E2]; [rewrite D; discriminate|]. rewrite D in E1, E2.
  rewrite E1. cbn [bind].
  replace (Z.to_nat (Z.of_nat (List.length (c :: r)) - 1 + 1)) with (List.length (c :: r)) by lia.
  assert (LE : (List.length (c :: r) <= List.length s)%nat).
  { rewrite <- D, <- (rev_length s). apply drop_while_length. }
  rewrite (put_prefix a s _ H LE). cbn [bind]. rewrite <- E2.
  destruct bad as [b|].
  - destruct (Nat.ltb_spec (List.length s) b) as [B|B]; [discriminate E|].
    rewrite (put_prefix a s b H B). cbn [bind]. exists z. split; [exact E|reflexivity].
  - exists z. split; [exact E|reflexivity].
Qed.

(** ** create_forward_ref *)
Lemma copy_cstring : forall a s off, str_at a off s -> forall n, n = List.length s ->
  exists b, memcpy (repeat ch_nul (n + 1)) a off n = Ret b /\ cstring b = s /\ List.length b = S n.
Proof.
  intros a s off H n E. rewrite (memcpy_string _ _ _ _ _ H E) by (rewrite repeat_length; lia).
  eexists. split; [reflexivity|]. assert (K : skipn n (repeat ch_nul (n + 1)) = [ch_nul]).
  { clear. induction n as [|n IH]; [reflexivity|exact IH]. }
  rewrite K. split; [apply cstring_app; destruct H as (_ & _ & _ & _ & N); exact N|].
  rewrite app_length. cbn [List.length]. lia.
Qed.

Lemma copy_prefix : forall a s n, str_at a 0 s -> (n <= List.length s)%nat ->
  exists b, memcpy (repeat ch_nul (n + 1)) a 0 n = Ret b /\ cstring b = firstn n s.
Proof.
  intros a s n H L. unfold memcpy.
  assert (LN : List.length (firstn n s) = n) by (rewrite firstn_length; lia).
  rewrite (memcpy_loop_ok (firstn n s)); [|intros k J|symmetry; exact LN|rewrite repeat_length; lia].
  - eexists. split; [reflexivity|]. rewrite LN. cbn [firstn Nat.add app].
    assert (K : skipn n (repeat ch_nul (n + 1)) = [ch_nul]).
    { clear. induction n as [|n IH]; [reflexivity|exact IH]. }
    rewrite K. apply cstring_app. intro I. destruct H as (_ & _ & _ & _ & N). apply N.
    rewrite <- (firstn_skipn n s). apply in_or_app. left. exact I.
  - rewrite LN in J. cbn [Nat.add]. rewrite firstn_nth by exact J. exact (str_at_nth s a 0 k H ltac:(lia)).
Qed.

Lemma create_forward_ref_ok : forall ok a s instr t u status pc num, str_at a 0 s -> TR t u ->
  refines eq (create_forward_ref_raw ok a instr t status pc num) (create_forward_ref ok s instr u status pc num).
Proof.
  intros ok a s instr t u status pc num H K. unfold create_forward_ref_raw, create_forward_ref.
  destruct (negb ok); [apply ref_same|].
  intros z E. unfold strip_source_line in E.
  rewrite (strlen_at _ _ _ H). cbn [bind].
  destruct (str_at_prefix _ _ H) as (junk & EA).
  (* the text without its newline *)
  assert (S1 : exists s1 rest, a = s1 ++ rest /\
    (match rev s with c :: r' => if Ascii.eqb c ch_nl then r' else rev s | [] => [] end) = rev s1 /\
    (s1 = [] \/ exists c, rd_left a (Z.of_nat (List.length s) - 1) = Ret c /\
       (if Ascii.eqb c ch_nl then Z.of_nat (List.length s) - 1 - 1 else Z.of_nat (List.length s) - 1)
       = Z.of_nat (List.length s1) - 1) /\ (exists q, s = s1 ++ q)).
  { destruct (rev s) as [|c r] eqn:R.
    - exists [], a. split; [reflexivity|]. split; [reflexivity|]. split; [left; reflexivity|].
      exists s. reflexivity.
    - assert (ES : s = rev r ++ [c]). { rewrite <- (rev_involutive s), R. reflexivity. }
      assert (RD : rd_left a (Z.of_nat (List.length s) - 1) = Ret c).
      { rewrite EA, ES. rewrite app_length. cbn [List.length]. unfold rd_left.
        destruct (Z.ltb_spec (Z.of_nat (List.length (rev r) + 1) - 1) 0) as [B|_]; [lia|].
        replace (Z.to_nat (Z.of_nat (List.length (rev r) + 1) - 1)) with (List.length (rev r)) by lia.
        unfold rd. rewrite <- app_assoc, nth_error_app2 by lia. rewrite Nat.sub_diag. reflexivity. }
      destruct (Ascii.eqb c ch_nl) eqn:C.
      + exists (rev r), ([c] ++ ch_nul :: junk). split; [rewrite EA, ES, <- app_assoc; reflexivity|].
        split; [rewrite rev_involutive; reflexivity|]. split; [|exists [c]; exact ES]. right. exists c. split; [exact RD|].
        rewrite C. rewrite ES, app_length. cbn [List.length]. lia.
      + exists s, (ch_nul :: junk). split; [exact EA|]. split; [symmetry; exact R|].
        split; [|exists []; rewrite app_nil_r; reflexivity]. right. exists c. split; [exact RD|]. rewrite C. reflexivity. }
  destruct S1 as (s1 & rest & E1 & E2 & E3 & (q & E4)). rewrite E2 in E.
  destruct (drop_while is_blank (rev s1)) as [|c r] eqn:D; cbn [bind] in E; [discriminate E|].
  destruct E3 as [-> | (c0 & RD & EE)]; [cbn in D; discriminate D|].
  rewrite RD. cbn [bind]. rewrite EE.
  assert (LE1 : (List.length s1 <= List.length s)%nat) by (rewrite E4, app_length; lia).
  rewrite <- (rev_length s1).
  rewrite (left_over_ok is_blank (rev s1) (S (List.length a)) a rest); [|rewrite rev_involutive; exact E1| |rewrite D; discriminate].
  2:{ rewrite rev_length. pose proof (str_at_length _ _ _ H). lia. }
  rewrite D. cbn [bind].
  replace (Z.to_nat (Z.of_nat (List.length (c :: r)) - 1 + 1)) with (List.length (c :: r)) by lia.
  assert (LE : (List.length (c :: r) <= List.length s)%nat).
  { rewrite <- D. pose proof (drop_while_length is_blank (rev s1)) as X. rewrite rev_length in X. lia. }
  destruct (copy_prefix a s _ H LE) as (b & -> & EB). cbn [bind].
  assert (EF : firstn (List.length (c :: r)) s = rev (c :: r)).
  { rewrite <- D. destruct (drop_while_suffix is_blank (rev s1)) as (k & EK). rewrite EK.
    rewrite (rev_skipn_prefix s1 k). rewrite E4, firstn_app. rewrite skipn_length, rev_length.
    replace (List.length s1 - k - List.length s1)%nat with 0%nat by lia. rewrite firstn_O, app_nil_r. reflexivity. }
  rewrite EF in EB.
  pose proof (TR_str _ _ K) as KS. rewrite (strlen_at _ _ _ KS). cbn [bind].
  destruct (copy_cstring _ _ _ KS _ eq_refl) as (lab & -> & EL & _). cbn [bind].
  rewrite (TR_loc _ _ K). destruct (tk_loc u) as [d|]; [|discriminate E].
  rewrite EB, EL. exists z. split; [exact E|reflexivity].
Qed.

(** ** djb2_hash, the label of a symbol *)
Lemma djb2_loop_at : forall s fuel a i h, str_at a i s -> (List.length s < fuel)%nat ->
  djb2_loop fuel a i h = Ret (fold_left djb2_step s h).
Proof.
  induction s as [|c s IH]; intros fuel a i h H F; (destruct fuel as [|k]; [lia|]); cbn [djb2_loop fold_left];
    rewrite (str_at_hdc _ _ _ H); cbn [bind hdc].
  - rewrite Ascii.eqb_refl. reflexivity.
  - destruct (Ascii.eqb_spec c ch_nul) as [D|_]; [destruct (str_at_nonul _ _ _ c H); [left; reflexivity|exact D]|].
    apply IH; [exact (str_at_tl _ _ _ _ H)|cbn [List.length] in F; lia].
Qed.

Lemma djb2_at : forall a s, str_at a 0 s -> djb2_hash_raw a = Ret (djb2_hash s).
Proof. intros a s H. apply djb2_loop_at; [exact H|]. pose proof (str_at_length _ _ _ H). lia. Qed.

Lemma symbol_label_at : forall a s, str_at a 0 s ->
  exists b, symbol_label_raw a = Ret b /\ cstring b = s /\ List.length b = S (List.length s).
Proof.
  intros a s H. unfold symbol_label_raw. rewrite (strlen_at _ _ _ H). cbn [bind]. exact (copy_cstring a s 0 H _ eq_refl).
Qed.

(** Proof_Sched.v -- a process alone, step by step, and main; the files a step depends on. *)
From Verif Require Import Base Proof_Base Model_Opcode Model_Error Model_Lexer Model_SymbolTable
  Model_Parser Model_ForwardRef Model_Generator Model_Main Proof_Source Proof_Run Prop_Again Model_Sched.

Lemma bind_assoc : forall A B C (m : M A) (f : A -> M B) (g : B -> M C), bind (bind m f) g = bind m (fun x => bind (f x) g).
Proof. intros. destruct m; reflexivity. Qed.

(** [n] steps of one process *)
Fixpoint solo (j : Job) (n : nat) (fs : FileSystem) (p : Proc) : M (FileSystem * Proc) :=
  match n with
  | O => Ret (fs, p)
  | S n' => '(fs', p') <- pstep j fs p ;; solo j n' fs' p'
  end.

Lemma solo_app : forall j a b fs p, solo j (a + b) fs p = ('(fs', p') <- solo j a fs p ;; solo j b fs' p').
Proof.
  induction a as [|a IH]; intros b fs p; [reflexivity|]. cbn [Nat.add solo].
  destruct (pstep j fs p) as [[fs' p']| |]; cbn [bind]; auto.
Qed.

Lemma solo_exited : forall j n fs c t, solo j n fs (Exited c t) = Ret (fs, Exited c t).
Proof. induction n as [|n IH]; intros; [reflexivity|]. cbn. apply IH. Qed.

Lemma solo_done : forall j a b fs p fs' c t, (a <= b)%nat -> solo j a fs p = Ret (fs', Exited c t) -> solo j b fs p = Ret (fs', Exited c t).
Proof.
  intros j a b fs p fs' c t L H. replace b with (a + (b - a))%nat by lia. rewrite solo_app, H. cbn [bind]. apply solo_exited.
Qed.

(** nothing but the output file changes *)
Definition frame (j : Job) (fs fs' : FileSystem) : Prop :=
  (forall name, name <> j_out j -> fs_file fs' name = fs_file fs name) /\ (forall name, fs_creatable fs' name = fs_creatable fs name).

Lemma frame_refl : forall j fs, frame j fs fs.
Proof. split; reflexivity. Qed.
Lemma frame_trans : forall j a b c, frame j a b -> frame j b c -> frame j a c.
Proof. intros j a b c [A1 A2] [B1 B2]. split; intros; [rewrite B1, A1 by assumption|rewrite B2, A2]; reflexivity. Qed.
Lemma frame_write : forall j fs d, frame j fs (fs_write fs (j_out j) d).
Proof. intros. split; [|reflexivity]. intros name N. cbn. rewrite (text_eqb_other _ _ N). reflexivity. Qed.

Lemma file_write : forall fs name d, fs_file (fs_write fs name d) name = Some d.
Proof. intros. cbn. rewrite text_eqb_same. reflexivity. Qed.

(** what a step depends on *)
Definition alike_for (j : Job) (a b : FileSystem) : Prop :=
  fs_file a (j_src j) = fs_file b (j_src j) /\ fs_file a (j_out j) = fs_file b (j_out j) /\ fs_creatable a (j_out j) = fs_creatable b (j_out j).

Definition step_sim (j : Job) (a b : FileSystem) (x y : M (FileSystem * Proc)) : Prop :=
  match x, y with
  | Ret (a', p), Ret (b', q) => p = q /\ fs_file a' (j_out j) = fs_file b' (j_out j) /\ frame j a a' /\ frame j b b'
  | Undef u, Undef v => u = v
  | Diverge, Diverge => True
  | _, _ => False
  end.

Lemma step_sim_bind : forall A j a b (m : M A) f g, (forall x, step_sim j a b (f x) (g x)) -> step_sim j a b (bind m f) (bind m g).
Proof. intros A j a b m f g H. destruct m; cbn; auto. Qed.

Lemma pstep_local : forall j a b p, alike_for j a b -> step_sim j a b (pstep j a p) (pstep j b p).
Proof.
  intros j a b p (S & O & C).
  assert (L : forall st, st_load a (j_out j) st = st_load b (j_out j) st) by (intro st; unfold st_load, content; rewrite O; reflexivity).
  destruct p as [| |k st|[|n] i st|c t]; cbn [pstep].
  - destruct (j_init j); cbn [negb].
    2:{ apply step_sim_bind. intro t. cbn. auto using frame_refl. }
    rewrite S. destruct (fs_file b (j_src j)); [cbn; auto using frame_refl|].
    apply step_sim_bind. intro t. cbn. auto using frame_refl.
  - rewrite C. destruct (fs_creatable b (j_out j)); cbn [negb].
    + cbn. rewrite text_eqb_same. split; [reflexivity|]. split; [reflexivity|]. split; apply frame_write.
    + apply step_sim_bind. intro t. cbn. auto using frame_refl.
  - unfold content. rewrite S. destruct (skipn k _) as [|c bs]; [cbn; auto using frame_refl|]. cbn zeta. rewrite L.
    apply step_sim_bind. intros [st'|st'|st']; cbn; rewrite text_eqb_same; (split; [reflexivity|]; split; [reflexivity|]; split; apply frame_write).
  - cbn. auto using frame_refl.
  - rewrite L. apply step_sim_bind.
    intros [st'|st'|st']; cbn; rewrite text_eqb_same; (split; [reflexivity|]; split; [reflexivity|]; split; apply frame_write).
  - cbn. auto using frame_refl.
Qed.

Lemma pstep_frame : forall j fs p fs' p', pstep j fs p = Ret (fs', p') -> frame j fs fs'.
Proof.
  intros j fs p fs' p' H. pose proof (pstep_local j fs fs p) as L. rewrite H in L. cbn in L. apply L. unfold alike_for. auto.
Qed.

(** a process that goes on alone ends like [r] *)
Definition leads (j : Job) (fs : FileSystem) (p : Proc) (r : M Outcome) : Prop :=
  match r with
  | Ret o => exists n fs', solo j n fs p = Ret (fs', Exited (exit_code o) (stdout o)) /\ fs_file fs' (j_out j) = Some (binary o)
  | Undef u => exists n, solo j n fs p = Undef u
  | Diverge => exists n, solo j n fs p = Diverge
  end.

Lemma leads_step : forall j fs p fs' p' r, pstep j fs p = Ret (fs', p') -> leads j fs' p' r -> leads j fs p r.
Proof.
  intros j fs p fs' p' r H L. destruct r; cbn in *.
  - destruct L as (n & f & E & D). exists (S n), f. cbn [solo]. rewrite H. auto.
  - destruct L as (n & E). exists (S n). cbn [solo]. rewrite H. exact E.
  - destruct L as (n & E). exists (S n). cbn [solo]. rewrite H. exact E.
Qed.

Lemma leads_stop : forall A j fs p (m : M A) (f : A -> M Outcome) (g : A -> M (FileSystem * Proc)),
  pstep j fs p = bind m g -> (forall x, m = Ret x -> leads j fs p (f x)) -> leads j fs p (bind m f).
Proof.
  intros A j fs p m f g H K. destruct m as [x| |]; cbn [bind].
  - apply K. reflexivity.
  - exists 1%nat. cbn [solo]. rewrite H. reflexivity.
  - exists 1%nat. cbn [solo]. rewrite H. reflexivity.
Qed.

Lemma st_load_same : forall fs out st, fs_file fs out = Some (of_data (st_out st)) -> st_load fs out st = st.
Proof. intros fs out st H. unfold st_load, content. rewrite H. destruct st as [? ? ? ? ? ? [d q] ? ? ? ?]. reflexivity. Qed.

Lemma resolve_all_step : forall file n i st,
  resolve_all file (S n) i st = bind (resolve_all file 1 i st) (fun r => match r with Finish st' => resolve_all file n (i + 1) st' | _ => Ret r end).
Proof.
  intros file n i st. cbn [resolve_all]. destruct (get _ i) as [[ref|]| |]; cbn [bind]; auto.
  destruct (search_symbol _ _) as [d| |]; cbn [bind]; auto. destruct (IS_ERROR d).
  - destruct (print_error _ _ _ _ _); cbn [bind]; auto.
  - destruct (resolve_forward_ref _ _ _ _) as [[[w f] o]| |]; cbn [bind]; auto. destruct (IS_ERROR w); reflexivity.
Qed.

Lemma resolve_one : forall file i st st', resolve_all file 1 i st <> Ret (Next st').
Proof.
  intros file i st st'. cbn [resolve_all]. destruct (get _ i) as [[ref|]| |]; cbn [bind]; try discriminate.
  destruct (search_symbol _ _) as [d| |]; cbn [bind]; try discriminate. destruct (IS_ERROR d).
  - destruct (print_error _ _ _ _ _); cbn [bind]; discriminate.
  - destruct (resolve_forward_ref _ _ _ _) as [[[w f] o]| |]; cbn [bind]; try discriminate. destruct (IS_ERROR w); discriminate.
Qed.

(** the second loop and the end *)
Definition after_refs (r2 : LineRes) : M Outcome :=
  match r2 with
  | Abort st2 => Ret (mkOutcome EXIT_FAILURE (st_stdout st2) (of_data (st_out st2)))
  | Next st2 | Finish st2 =>
    Ret (mkOutcome EXIT_SUCCESS (st_stdout st2 ++ summary (st_total st2) (tab_count (st_symtab st2))) (of_data (st_out st2)))
  end.

Lemma leads_resolve : forall j n i st fs, fs_file fs (j_out j) = Some (of_data (st_out st)) ->
  leads j fs (Resolving n i st) (bind (resolve_all (j_src j) n i st) after_refs).
Proof.
  intro j. induction n as [|n IH]; intros i st fs F.
  - cbn [resolve_all bind after_refs]. exists 1%nat, fs. cbn. auto.
  - rewrite resolve_all_step. rewrite bind_assoc. eapply leads_stop.
    + cbn [pstep]. rewrite (st_load_same _ _ _ F). reflexivity.
    + intros r E. assert (P : pstep j fs (Resolving (S n) i st) = match r with
        | Next st' | Finish st' => Ret (st_store fs (j_out j) st', Resolving n (i + 1) st')
        | Abort st' => Ret (st_store fs (j_out j) st', Exited EXIT_FAILURE (st_stdout st')) end).
      { cbn [pstep]. rewrite (st_load_same _ _ _ F), E. reflexivity. }
      destruct r as [st'|st'|st'].
      * destruct (resolve_one _ _ _ _ E).
      * eapply leads_step; [exact P|]. apply IH. apply file_write.
      * cbn [bind after_refs]. eapply leads_step; [exact P|]. exists 0%nat. eexists. split; [reflexivity|]. apply file_write.
Qed.

Lemma skipn_more : forall A a b (l : list A), skipn (a + b) l = skipn b (skipn a l).
Proof. induction a as [|a IH]; intros b [|x l]; cbn [Nat.add skipn]; auto. destruct b; reflexivity. Qed.

(** the first loop *)
Lemma leads_read : forall j bytes lines k st fs, j_src j <> j_out j -> fs_file fs (j_src j) = Some bytes ->
  fs_file fs (j_out j) = Some (of_data (st_out st)) -> chunks (map chr (skipn k bytes)) = lines ->
  leads j fs (Reading k st) (bind (run_lines (j_env j) lines st) (after_loop (j_src j))).
Proof.
  intros j bytes. induction lines as [|l lines IH]; intros k st fs N S F C.
  - destruct (skipn k bytes) as [|b bs] eqn:K.
    2:{ cbn [map] in C. destruct (fgets 127 (chr b :: map chr bs)) as [l r] eqn:G.
        rewrite (chunks_cons _ l r) in C by (exact G || discriminate). discriminate. }
    eapply leads_step. { cbn [pstep]. unfold content. rewrite S, K. reflexivity. }
    apply leads_resolve. exact F.
  - destruct (skipn k bytes) as [|b bs] eqn:K; [discriminate|]. cbn [map] in C.
    destruct (fgets 127 (chr b :: map chr bs)) as [l0 r0] eqn:G.
    rewrite (chunks_cons _ l0 r0) in C by (exact G || discriminate). injection C as -> C.
    assert (P : pstep j fs (Reading k st) = (r <- process_line (j_env j (st_line_num st)) (cstring l) st ;;
      match r with
      | Next st' => Ret (st_store fs (j_out j) st', Reading (k + List.length l) st')
      | Finish st' => Ret (st_store fs (j_out j) st', to_resolve st')
      | Abort st' => Ret (st_store fs (j_out j) st', Exited EXIT_FAILURE (st_stdout st'))
      end)).
    { cbn [pstep]. unfold content at 1. rewrite S, K. cbn [map]. change (MAX_BUFFER_SIZE - 1)%nat with 127%nat. rewrite G.
      cbn [fst]. rewrite (st_load_same _ _ _ F). reflexivity. }
    cbn [run_lines]. rewrite bind_assoc. eapply leads_stop; [exact P|]. intros r E. rewrite E in P. cbn [bind] in P.
    destruct r as [st'|st'|st'].
    + eapply leads_step; [exact P|]. apply IH; auto.
      * cbn. rewrite (text_eqb_other _ _ N). exact S.
      * apply file_write.
      * rewrite skipn_more, K, <- skipn_map. cbn [map]. destruct (fgets_length _ _ _ _ G) as [E2 _].
        rewrite E2, skipn_app, skipn_all, Nat.sub_diag. exact C.
    + cbn [bind]. eapply leads_step; [exact P|]. apply leads_resolve. apply file_write.
    + cbn [bind after_loop]. eapply leads_step; [exact P|]. exists 0%nat. eexists. split; [reflexivity|]. apply file_write.
Qed.

(** a process alone does what [main] does *)
Lemma solo_main : forall j fs code text fs', j_src j <> j_out j -> main (j_init j) (j_env j) fs (j_src j) (j_out j) = Ret (code, text, fs') ->
  exists n fs'', solo j n fs Starting = Ret (fs'', Exited code text) /\ fs_file fs'' (j_out j) = fs_file fs' (j_out j).
Proof.
  intros j fs code text fs' N H. unfold main in H. destruct (j_init j) eqn:I; cbn [negb] in H.
  2:{ destruct (print_error _ _ _ _ _) eqn:E; cbn [bind] in H; try discriminate. injection H as <- <- <-.
      exists 1%nat, fs. cbn [solo pstep]. rewrite I. cbn [negb]. rewrite E. auto. }
  destruct (fs_file fs (j_src j)) as [bytes|] eqn:F.
  2:{ destruct (print_error _ _ _ _ _) eqn:E; cbn [bind] in H; try discriminate. injection H as <- <- <-.
      exists 1%nat, fs. cbn [solo pstep]. rewrite I, F. cbn [negb]. rewrite E. auto. }
  destruct (fs_creatable fs (j_out j)) eqn:C; cbn [negb] in H.
  2:{ destruct (print_error _ _ _ _ _) eqn:E; cbn [bind] in H; try discriminate. injection H as <- <- <-.
      exists 2%nat, fs. cbn [solo pstep]. rewrite I, F. cbn [negb bind pstep]. rewrite C. cbn [negb]. rewrite E. auto. }
  cbn zeta in H. assert (F1 : fs_file (fs_write fs (j_out j) []) (j_src j) = Some bytes).
  { cbn. rewrite (text_eqb_other _ _ N). exact F. }
  rewrite F1 in H. destruct (assemble _ _ _) as [o| |] eqn:A; cbn [bind] in H; try discriminate. injection H as <- <- <-.
  rewrite assemble_after in A.
  pose proof (leads_read j bytes (chunks (map chr bytes)) 0 (init_state (j_src j)) (fs_write fs (j_out j) []) N F1 (file_write _ _ _) eq_refl) as L.
  rewrite A in L. destruct L as (n & fs'' & L & D). exists (S (S n)), fs''. split; [|rewrite D; symmetry; apply file_write].
  cbn [solo pstep]. rewrite I, F. cbn [negb bind pstep]. rewrite C. cbn [negb bind]. exact L.
Qed.

Lemma solo_main_undef : forall j fs, j_src j <> j_out j -> (forall r, main (j_init j) (j_env j) fs (j_src j) (j_out j) <> Ret r) ->
  exists n, forall r, solo j n fs Starting <> Ret r.
Proof.
  intros j fs N H. unfold main in H. destruct (j_init j) eqn:I; cbn [negb] in H.
  2:{ destruct (print_error _ _ _ _ _) eqn:E; cbn [bind] in H; [destruct (H _ eq_refl)| |];
      exists 1%nat; cbn [solo pstep]; rewrite I; cbn [negb]; rewrite E; discriminate. }
  destruct (fs_file fs (j_src j)) as [bytes|] eqn:F.
  2:{ destruct (print_error _ _ _ _ _) eqn:E; cbn [bind] in H; [destruct (H _ eq_refl)| |];
      exists 1%nat; cbn [solo pstep]; rewrite I, F; cbn [negb]; rewrite E; discriminate. }
  destruct (fs_creatable fs (j_out j)) eqn:C; cbn [negb] in H.
  2:{ destruct (print_error _ _ _ _ _) eqn:E; cbn [bind] in H; [destruct (H _ eq_refl)| |];
      exists 2%nat; cbn [solo pstep]; rewrite I, F; cbn [negb bind pstep]; rewrite C; cbn [negb]; rewrite E; discriminate. }
  cbn zeta in H. assert (F1 : fs_file (fs_write fs (j_out j) []) (j_src j) = Some bytes).
  { cbn. rewrite (text_eqb_other _ _ N). exact F. }
  rewrite F1 in H.
  pose proof (leads_read j bytes (chunks (map chr bytes)) 0 (init_state (j_src j)) (fs_write fs (j_out j) []) N F1 (file_write _ _ _) eq_refl) as L.
  rewrite <- assemble_after in L. destruct (assemble _ _ _) as [o| |] eqn:A; cbn [bind] in H; [destruct (H _ eq_refl)| |];
  destruct L as (n & L); exists (S (S n)); cbn [solo pstep]; rewrite I, F; cbn [negb bind pstep]; rewrite C; cbn [negb bind]; rewrite L; discriminate.
Qed.

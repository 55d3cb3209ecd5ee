(** Prop_Again.v -- C53: the result depends on the source file only; only the output file changes. *)
From Verif Require Import Base Proof_Base Model_Opcode Model_Error Model_Lexer Model_SymbolTable
  Model_Parser Model_ForwardRef Model_Generator Model_Main.

(** two file systems with the same files *)
Definition same_files (a b : FileSystem) : Prop :=
  (forall name, fs_file a name = fs_file b name) /\ (forall name, fs_creatable a name = fs_creatable b name).

Lemma text_eqb_same : forall a, text_eqb a a = true.
Proof. induction a as [|c a IH]; [reflexivity|]. cbn. rewrite Ascii.eqb_refl. exact IH. Qed.
Lemma text_eqb_other : forall a b, a <> b -> text_eqb a b = false.
Proof.
  induction a as [|c a IH]; intros [|d b] H; try reflexivity; try congruence. cbn.
  destruct (Ascii.eqb_spec c d) as [-> |]; [|reflexivity]. apply IH. congruence.
Qed.

(** no other file is touched *)
Theorem C53_only_output : forall init_ok env fs src out code text fs',
  main init_ok env fs src out = Ret (code, text, fs') ->
  (forall name, name <> out -> fs_file fs' name = fs_file fs name) /\ (forall name, fs_creatable fs' name = fs_creatable fs name).
Proof.
  intros init_ok env fs src out code text fs' H. unfold main in H. destruct init_ok; cbn [negb] in H.
  2:{ destruct (print_error _ _ _ _ _); cbn in H; try discriminate. injection H as _ _ <-. auto. }
  destruct (fs_file fs src).
  2:{ destruct (print_error _ _ _ _ _); cbn in H; try discriminate. injection H as _ _ <-. auto. }
  destruct (fs_creatable fs out); cbn [negb] in H.
  2:{ destruct (print_error _ _ _ _ _); cbn in H; try discriminate. injection H as _ _ <-. auto. }
  destruct (assemble _ _ _) as [o| |]; cbn [bind] in H; try discriminate. injection H as _ _ <-.
  split; [|reflexivity]. intros name N. cbn. rewrite (text_eqb_other _ _ N). reflexivity.
Qed.

(** the rest of the file system has no influence, nor what the output file contained before *)
Theorem C53_function_of_source : forall init_ok env fs1 fs2 src out code text fs1',
  fs_file fs1 src = fs_file fs2 src -> fs_creatable fs1 out = fs_creatable fs2 out ->
  main init_ok env fs1 src out = Ret (code, text, fs1') ->
  exists fs2', main init_ok env fs2 src out = Ret (code, text, fs2') /\
    ((same_files fs1' fs1 /\ same_files fs2' fs2) \/ fs_file fs1' out = fs_file fs2' out).
Proof.
  intros init_ok env fs1 fs2 src out code text fs1' F C H. unfold main in *. destruct init_ok; cbn [negb] in *.
  2:{ destruct (print_error _ _ _ _ _); cbn in *; try discriminate. injection H as <- <- <-. eexists. split; [reflexivity|]. left. split; split; auto. }
  rewrite F in H. destruct (fs_file fs2 src) as [bytes|] eqn:F2.
  2:{ destruct (print_error _ _ _ _ _); cbn in *; try discriminate. injection H as <- <- <-. eexists. split; [reflexivity|]. left. split; split; auto. }
  rewrite C in H. destruct (fs_creatable fs2 out); cbn [negb] in *.
  2:{ destruct (print_error _ _ _ _ _); cbn in *; try discriminate. injection H as <- <- <-. eexists. split; [reflexivity|]. left. split; split; auto. }
  assert (S : fs_file (fs_write fs1 out []) src = fs_file (fs_write fs2 out []) src).
  { cbn. destruct (text_eqb src out); [reflexivity|]. congruence. }
  rewrite S in H. destruct (assemble _ _ _) as [o| |]; cbn [bind] in *; try discriminate. injection H as <- <- <-.
  eexists. split; [reflexivity|]. right. cbn. rewrite text_eqb_same. reflexivity.
Qed.

(** assembling again changes nothing *)
Theorem C53_again : forall init_ok env fs src out code text fs', src <> out ->
  main init_ok env fs src out = Ret (code, text, fs') ->
  exists fs'', main init_ok env fs' src out = Ret (code, text, fs'') /\ same_files fs'' fs'.
Proof.
  intros init_ok env fs src out code text fs' N H. destruct (C53_only_output _ _ _ _ _ _ _ _ H) as [O C].
  destruct (C53_function_of_source init_ok env fs fs' src out code text fs') as (fs'' & H2 & D); auto.
  { symmetry. apply O. exact N. }
  exists fs''. split; [exact H2|]. destruct (C53_only_output _ _ _ _ _ _ _ _ H2) as [O2 C2].
  destruct D as [[_ D]|D]; [exact D|]. split; [|exact C2]. intro name.
  destruct (list_eq_dec ascii_dec name out) as [-> |K]; [symmetry; exact D|apply O2; exact K].
Qed.

Example C53_case : exists fs src out text fs' bytes, src <> out /\ fs_file fs out <> None /\
  main true no_failure fs src out = Ret (0, text, fs') /\ fs_file fs' out = Some bytes /\ bytes = [169; 16] /\
  exists fs'', main true no_failure fs' src out = Ret (0, text, fs'') /\ same_files fs'' fs'.
Proof.
  exists (mkFS (fun n => if text_eqb n (T "a.asm") then Some (map code (T "LDA #$10")) else if text_eqb n (T "b.bin") then Some [1;2;3] else None) (fun _ => true)),
    (T "a.asm"), (T "b.bin"). do 3 eexists. split; [discriminate|]. split; [discriminate|].
  match goal with |- ?A /\ _ => assert (H : A) by (vm_compute; reflexivity) end.
  split; [exact H|]. split; [vm_compute; reflexivity|]. split; [reflexivity|]. eapply C53_again; [|exact H]. discriminate.
Qed.

(** Prop_Memory.v -- the dynamic memory and the files of a whole run (C51). *)
From Coq Require Import Permutation.
From Verif Require Import Base Model_Opcode Model_Error Model_Lexer Model_SymbolTable Model_Parser
  Model_ForwardRef Model_Generator Model_Main Model_Memory
  Proof_Base Proof_Heap Proof_HeapRun Prop_Run.

(** ** C51.  [main_h] returns: no freed or never allocated block is read, written or freed, no
    NULL pointer is dereferenced, no copied string overruns its block, no struct is read before
    it is filled.  [h] is the memory at the exit. *)
Definition blocks_in_use (h : Heap) : nat := List.length (h_cells h).
Definition files_open (h : Heap) : nat :=
  List.length (filter (fun b => match snd b with CFile => true | _ => false end) (h_cells h)).
(** all the allocations that were tried succeeded *)
Definition memory_sufficed (orc : Oracle) (h : Heap) : Prop := forall n, (n < h_tries h)%nat -> orc n = true.

Lemma files_none : forall l, nofile l ->
  filter (fun b : nat * Cell => match snd b with CFile => true | _ => false end) l = [].
Proof.
  induction l as [|[a c] l IH]; intros N; [reflexivity|]. inversion N as [|x y N1 N2]; subst. cbn [filter snd] in *.
  destruct c; try (apply IH; exact N2). contradiction.
Qed.
Lemma sufficed_dec : forall orc w h l, heap_is orc w h l ->
  (w = false /\ memory_sufficed orc h) \/ (w = true /\ ~ memory_sufficed orc h).
Proof.
  intros orc [|] h l (_ & F); cbn [failed] in F; [right|left]; split; auto.
  destruct F as (k & K & O). intros A. rewrite (A k K) in O. discriminate.
Qed.

Theorem C51_memory : forall orc fs src out,
  (forall bytes, fs_file fs src = Some bytes ->
     Z.of_nat (List.length bytes) < 20000000 /\ Forall (fun b => 0 <= b < 128) bytes) ->
  exists code text fs' h, main_h orc fs src out = Ret (code, text, fs', h) /\
    files_open h = 0%nat /\
    (forall name, text_eqb name out = false -> fs_file fs' name = fs_file fs name) /\
    (memory_sufficed orc h -> main true no_failure fs src out = Ret (code, text, fs') /\ blocks_in_use h = 0%nat) /\
    (~ memory_sufficed orc h -> code = 1).
Proof.
  intros orc fs src out H. destruct (C37_main true no_failure fs src out H) as (r & R).
  destruct (main_h_spec orc fs src out r R (print_none _ _ _))
    as ([[code text] fs'] & h & w & leak & E & NF & HI & A & B & MM & C).
  exists code, text, fs', h. split; [exact E|].
  assert (HI' := HI). destruct HI' as ((P & _) & _).
  split; [|split; [exact C|]].
  { unfold files_open. apply length_zero_iff_nil. apply files_none.
    eapply Permutation_Forall; [symmetry; exact P|exact NF]. }
  destruct (sufficed_dec _ _ _ _ HI) as [(-> & S)|(-> & S)].
  - split; [|intros X; contradiction]. intros _. destruct (A eq_refl) as (<- & ->).
    split; [exact R|]. unfold blocks_in_use. apply length_zero_iff_nil. apply Permutation_nil. symmetry. exact P.
  - split; [intros X; contradiction|]. intros _. exact (B eq_refl).
Qed.

(** a run that reports success has released everything and did what it does with enough memory *)
Theorem C51_success : forall orc fs src out text fs' h,
  (forall bytes, fs_file fs src = Some bytes ->
     Z.of_nat (List.length bytes) < 20000000 /\ Forall (fun b => 0 <= b < 128) bytes) ->
  main_h orc fs src out = Ret (0, text, fs', h) ->
  memory_sufficed orc h /\ blocks_in_use h = 0%nat /\ main true no_failure fs src out = Ret (0, text, fs').
Proof.
  intros orc fs src out text fs' h H E.
  destruct (C37_main true no_failure fs src out H) as (r & R).
  destruct (main_h_spec orc fs src out r R (print_none _ _ _))
    as ([[c t] f] & h1 & w & leak & E1 & NF & HI & A & B & MM & C).
  rewrite E1 in E. injection E as -> -> -> ->.
  assert (HI' := HI). destruct HI' as ((P & _) & _).
  destruct (sufficed_dec _ _ _ _ HI) as [(-> & S)|(-> & S)].
  - destruct (A eq_refl) as (<- & ->). split; [exact S|]. split; [|exact R].
    unfold blocks_in_use. apply length_zero_iff_nil. apply Permutation_nil. symmetry. exact P.
  - specialize (B eq_refl). discriminate.
Qed.

(** a program with labels and forward references *)
Definition memory_fs : FileSystem :=
  mkFS (fun n => if text_eqb n (T "a.asm") then
                   Some (map code (T "START LDA #1" ++ [ch_nl] ++ T "BEQ NEXT" ++ [ch_nl] ++ T "JMP NEXT" ++ [ch_nl]
                         ++ T "NEXT RTS" ++ [ch_nl]))
                 else None)
       (fun _ => true).
Definition view (r : M (ProcResult * Heap)) : option (Z * option (list Z) * nat * nat * nat) :=
  match r with
  | Ret (c, _, fs, h) => Some (c, fs_file fs (T "a.out"), blocks_in_use h, files_open h, h_tries h)
  | _ => None
  end.
Example C51_case : view (main_h (fun _ => true) memory_fs (T "a.asm") (T "a.out")) =
  Some (0, Some [169; 1; 240; 3; 76; 7; 0; 96], 0%nat, 0%nat, 37%nat).
Proof. vm_compute. reflexivity. Qed.
Example C51_case_assumption : forall bytes, fs_file memory_fs (T "a.asm") = Some bytes ->
  Z.of_nat (List.length bytes) < 20000000 /\ Forall (fun b => 0 <= b < 128) bytes.
Proof. intros bytes H. vm_compute in H. injection H as <-. split; [vm_compute; reflexivity|]. repeat constructor; vm_compute; intuition discriminate. Qed.
(** ** when an allocation fails, not everything is released *)
(** the string of the first token: the structs allocated before it stay *)
Example C51_leak_init : view (main_h (fun n => negb (Nat.eqb n 3)) memory_fs (T "a.asm") (T "a.out")) =
  Some (1, None, 3%nat, 0%nat, 11%nat).
Proof. vm_compute. reflexivity. Qed.
(** the label of the second pending reference *)
Example C51_leak_ref : view (main_h (fun n => negb (Nat.eqb n 33)) memory_fs (T "a.asm") (T "a.out")) =
  Some (1, Some [169; 1; 240; 0], 2%nat, 0%nat, 34%nat).
Proof. vm_compute. reflexivity. Qed.
(** the realloc of the array of pending references: the array, the seven references in it, the
    new one and the struct stay *)
Definition many_fs : FileSystem :=
  mkFS (fun n => if text_eqb n (T "a.asm") then Some (map code (List.concat (repeat (T "BEQ AWAY" ++ [ch_nl]) 8)))
                 else None)
       (fun _ => true).
Example C51_leak_realloc : view (main_h (fun n => negb (Nat.eqb n 57)) many_fs (T "a.asm") (T "a.out")) =
  Some (1, Some (List.concat (repeat [240; 0] 7)), 34%nat, 0%nat, 58%nat).
Proof. vm_compute. reflexivity. Qed.
Theorem C51_refuted : ~ (forall orc fs src out code text fs' h,
  main_h orc fs src out = Ret (code, text, fs', h) -> blocks_in_use h = 0%nat).
Proof.
  intros H. destruct (main_h (fun n => negb (Nat.eqb n 57)) many_fs (T "a.asm") (T "a.out")) as [[[[c t] f] h]| |] eqn:E.
  - apply H in E as B.
    assert (V := C51_leak_realloc). rewrite E in V. cbn [view] in V. rewrite B in V. discriminate.
  - assert (V := C51_leak_realloc). rewrite E in V. discriminate.
  - assert (V := C51_leak_realloc). rewrite E in V. discriminate.
Qed.

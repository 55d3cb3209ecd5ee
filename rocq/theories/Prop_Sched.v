(** Prop_Sched.v -- C64: several assemblers at the same time. *)
From Verif Require Import Base Proof_Base Model_Opcode Model_Error Model_Lexer Model_SymbolTable
  Model_Parser Model_ForwardRef Model_Generator Model_Main Proof_Source Proof_Run Prop_Again Model_Sched Proof_Sched.

(** no process writes a file another one (or itself) reads or writes *)
Definition apart (jobs : nat -> Job) : Prop :=
  (forall i k, i <> k -> j_out (jobs i) <> j_out (jobs k)) /\ (forall i k, j_out (jobs i) <> j_src (jobs k)).

(** the number of steps of process [i] *)
Definition steps_of (i : nat) (who : list nat) : nat := count_occ Nat.eq_dec who i.

Lemma solo_frame : forall j n fs p fs' p', solo j n fs p = Ret (fs', p') -> frame j fs fs'.
Proof.
  induction n as [|n IH]; intros fs p fs' p' H; cbn [solo] in H.
  - injection H as <- _. apply frame_refl.
  - destruct (pstep j fs p) as [[f q]| |] eqn:E; cbn [bind] in H; try discriminate.
    eapply frame_trans; [eapply pstep_frame; exact E|eapply IH; exact H].
Qed.

Lemma history_frame : forall jobs fs0 who fs ps, history jobs fs0 who fs ps ->
  (forall name, (forall i, name <> j_out (jobs i)) -> fs_file fs name = fs_file fs0 name) /\ (forall name, fs_creatable fs name = fs_creatable fs0 name).
Proof.
  intros jobs fs0 who fs ps H. induction H as [|who fs ps i fs' p H IH R E]; [split; reflexivity|].
  destruct IH as [A B]. destruct (pstep_frame _ _ _ _ _ E) as [C D].
  split; intros; [rewrite C, A; auto|rewrite D, B; reflexivity].
Qed.

(** every process is where it would be after as many steps alone *)
Lemma history_solo : forall jobs fs0 who fs ps, apart jobs -> history jobs fs0 who fs ps -> forall i,
  exists f, solo (jobs i) (steps_of i who) fs0 Starting = Ret (f, ps i) /\ fs_file fs (j_out (jobs i)) = fs_file f (j_out (jobs i)).
Proof.
  intros jobs fs0 who fs ps [A1 A2] H. induction H as [|who fs ps i fs' p H IH R E]; intro k.
  - exists fs0. split; reflexivity.
  - pose proof (pstep_frame _ _ _ _ _ E) as [F1 F2]. destruct (IH k) as (f & S & O). unfold steps_of in *. cbn [count_occ set_proc].
    destruct (Nat.eq_dec i k) as [<- |N].
    + unfold set_proc. rewrite Nat.eqb_refl.
      pose proof (history_frame _ _ _ _ _ H) as [G1 G2]. pose proof (solo_frame _ _ _ _ _ _ S) as [K1 K2].
      pose proof (pstep_local (jobs i) fs f (ps i)) as L. rewrite E in L.
      destruct (pstep (jobs i) f (ps i)) as [[f' p']| |] eqn:E2; cbn in L; try (destruct L; fail).
      * destruct L as (<- & Q & _ & _).
        { split; [|split; [exact O|rewrite G2, K2; reflexivity]].
          rewrite (G1 (j_src (jobs i))) by (intros q Hq; exact (A2 q i (eq_sym Hq))). symmetry. apply K1. intro Hq. exact (A2 i i (eq_sym Hq)). }
        exists f'. split; [|exact Q]. rewrite <- Nat.add_1_r, solo_app, S. cbn [bind solo]. rewrite E2. reflexivity.
      * contradiction L. split; [|split; [exact O|rewrite G2, K2; reflexivity]].
        rewrite (G1 (j_src (jobs i))) by (intros q Hq; exact (A2 q i (eq_sym Hq))). symmetry. apply K1. intro Hq. exact (A2 i i (eq_sym Hq)).
      * contradiction L. split; [|split; [exact O|rewrite G2, K2; reflexivity]].
        rewrite (G1 (j_src (jobs i))) by (intros q Hq; exact (A2 q i (eq_sym Hq))). symmetry. apply K1. intro Hq. exact (A2 i i (eq_sym Hq)).
    + unfold set_proc. rewrite (proj2 (Nat.eqb_neq k i)) by congruence. exists f. split; [exact S|].
      rewrite F1; [exact O|]. intro Hq. apply (A1 k i); congruence.
Qed.

(** ** C64.  Whatever the order of the steps, and wherever the other processes are (or were killed), a process that has
    exited did what it does when it runs alone *)
Theorem C64_parallel : forall jobs fs0 who fs ps i code text, apart jobs -> history jobs fs0 who fs ps -> ps i = Exited code text ->
  exists fs1, main (j_init (jobs i)) (j_env (jobs i)) fs0 (j_src (jobs i)) (j_out (jobs i)) = Ret (code, text, fs1) /\
    fs_file fs (j_out (jobs i)) = fs_file fs1 (j_out (jobs i)).
Proof.
  intros jobs fs0 who fs ps i code text A H X. destruct (history_solo _ _ _ _ _ A H i) as (f & S & O). rewrite X in S.
  assert (N : j_src (jobs i) <> j_out (jobs i)) by (intro Hq; exact (proj2 A i i (eq_sym Hq))).
  destruct (main (j_init (jobs i)) (j_env (jobs i)) fs0 (j_src (jobs i)) (j_out (jobs i))) as [[[c t] f1]|u|] eqn:M.
  - destruct (solo_main _ _ _ _ _ N M) as (n & f2 & S2 & O2).
    apply (solo_done _ _ (n + steps_of i who)) in S; [|lia]. apply (solo_done _ _ (n + steps_of i who)) in S2; [|lia].
    rewrite S in S2. injection S2 as <- <- <-. exists f1. split; [reflexivity|congruence].
  - destruct (solo_main_undef (jobs i) fs0 N) as (n & U); [intros r; rewrite M; discriminate|].
    destruct (Nat.le_gt_cases (steps_of i who) n) as [L|L].
    + destruct (U _ (solo_done _ _ _ _ _ _ _ _ L S)).
    + replace (steps_of i who) with (n + (steps_of i who - n))%nat in S by lia. rewrite solo_app in S.
      destruct (solo (jobs i) n fs0 Starting) as [r| |]; [destruct (U r eq_refl)| |]; discriminate.
  - destruct (solo_main_undef (jobs i) fs0 N) as (n & U); [intros r; rewrite M; discriminate|].
    destruct (Nat.le_gt_cases (steps_of i who) n) as [L|L].
    + destruct (U _ (solo_done _ _ _ _ _ _ _ _ L S)).
    + replace (steps_of i who) with (n + (steps_of i who - n))%nat in S by lia. rewrite solo_app in S.
      destruct (solo (jobs i) n fs0 Starting) as [r| |]; [destruct (U r eq_refl)| |]; discriminate.
Qed.

(** all other files stay as they are *)
Theorem C64_other_files : forall jobs fs0 who fs ps name, history jobs fs0 who fs ps ->
  (forall i, name <> j_out (jobs i)) -> fs_file fs name = fs_file fs0 name.
Proof. intros jobs fs0 who fs ps name H N. apply (proj1 (history_frame _ _ _ _ _ H)). exact N. Qed.

(** no process can be stopped, or kept busy for ever, by the others: it needs a fixed number of steps, and can always make one *)
Theorem C64_progress : forall jobs fs0 i r, apart jobs ->
  main (j_init (jobs i)) (j_env (jobs i)) fs0 (j_src (jobs i)) (j_out (jobs i)) = Ret r ->
  exists bound, forall who fs ps, history jobs fs0 who fs ps ->
    (steps_of i who <= bound)%nat /\ (running (ps i) -> exists fs' p, pstep (jobs i) fs (ps i) = Ret (fs', p)) /\
    (steps_of i who = bound -> ~ running (ps i)).
Proof.
  intros jobs fs0 i [[code text] fs1] A M.
  assert (N : j_src (jobs i) <> j_out (jobs i)) by (intro Hq; exact (proj2 A i i (eq_sym Hq))).
  destruct (solo_main _ _ _ _ _ N M) as (n & f2 & S2 & _). exists n.
  assert (B : forall who fs ps, history jobs fs0 who fs ps -> (n <= steps_of i who)%nat -> ~ running (ps i)).
  { intros who fs ps H L R. destruct (history_solo _ _ _ _ _ A H i) as (f & S & _). rewrite (solo_done _ _ _ _ _ _ _ _ L S2) in S.
    injection S as _ S. rewrite <- S in R. exact R. }
  intros who fs ps H. split; [|split].
  - destruct H as [|who fs ps k fs' p H R E]; [cbn; lia|]. unfold steps_of. cbn [count_occ].
    clear S2. revert fs ps k fs' p H R E. 
    assert (G : forall who fs ps, history jobs fs0 who fs ps -> (steps_of i who <= n)%nat).
    { clear - B. intros who fs ps H. induction H as [|who fs ps k fs' p H IH R E]; [cbn; lia|].
      unfold steps_of in *. cbn [count_occ]. destruct (Nat.eq_dec k i) as [-> |]; [|exact IH].
      destruct (Nat.le_gt_cases n (count_occ Nat.eq_dec who i)) as [L|L]; [|lia]. destruct (B _ _ _ H L R). }
    intros fs ps k fs' p H R E. apply (G _ _ _ (history_step _ _ _ _ _ _ _ _ H R E)).
  - intro R. destruct (history_solo _ _ _ _ _ A H i) as (f & S & O).
    destruct (Nat.le_gt_cases n (steps_of i who)) as [L|L]; [destruct (B _ _ _ H L R)|].
    replace n with (steps_of i who + (1 + (n - steps_of i who - 1)))%nat in S2 by lia.
    rewrite solo_app, S in S2. cbn [bind] in S2. cbn [Nat.add solo] in S2.
    pose proof (history_frame _ _ _ _ _ H) as [G1 G2]. pose proof (solo_frame _ _ _ _ _ _ S) as [K1 K2].
    pose proof (pstep_local (jobs i) fs f (ps i)) as Q.
    destruct (pstep (jobs i) f (ps i)) as [[f' p']| |]; cbn [bind] in S2; try discriminate.
    destruct (pstep (jobs i) fs (ps i)) as [[a b]| |]; [eauto| |]; cbn in Q; contradiction Q;
      (split; [|split; [exact O|rewrite G2, K2; reflexivity]];
       rewrite (G1 (j_src (jobs i))) by (intros q Hq; exact (proj2 A q i (eq_sym Hq))); symmetry; apply K1; intro Hq; exact (proj2 A i i (eq_sym Hq))).
  - intros E. apply (B _ _ _ H). lia.
Qed.

(** ** Two processes with the same output file (the default, a.out) disturb each other *)
Definition runningb (p : Proc) : bool := match p with Exited _ _ => false | _ => true end.

(** carry out the steps [who], the first one first *)
Fixpoint play (jobs : nat -> Job) (who : list nat) (fs : FileSystem) (ps : nat -> Proc) : option (FileSystem * (nat -> Proc)) :=
  match who with
  | [] => Some (fs, ps)
  | i :: rest => if runningb (ps i) then
      match pstep (jobs i) fs (ps i) with Ret (fs', p) => play jobs rest fs' (set_proc ps i p) | _ => None end
    else None
  end.

Lemma play_history : forall jobs fs0 who done fs ps fs' ps', history jobs fs0 done fs ps -> play jobs who fs ps = Some (fs', ps') ->
  history jobs fs0 (rev who ++ done) fs' ps'.
Proof.
  intros jobs fs0. induction who as [|i who IH]; intros done fs ps fs' ps' H P; cbn [play] in P.
  - injection P as <- <-. exact H.
  - destruct (runningb (ps i)) eqn:R; [|discriminate].
    destruct (pstep (jobs i) fs (ps i)) as [[f p]| |] eqn:E; try discriminate.
    cbn [rev]. rewrite <- app_assoc. cbn [app]. eapply IH; [|exact P]. apply (history_step jobs fs0 done fs ps i f p H); [|exact E].
    destruct (ps i); try exact I. discriminate.
Qed.

Definition two_sources (a b : text) : FileSystem :=
  mkFS (fun n => if text_eqb n (T "a.asm") then Some (map code a) else if text_eqb n (T "b.asm") then Some (map code b) else None) (fun _ => true).
Definition job (src out : string) : Job := mkJob (T src) (T out) true no_failure.

(** what is seen of the end of [play] *)
Definition exit_of (p : Proc) : option Z := match p with Exited c _ => Some c | _ => None end.
Definition seen_end (r : option (FileSystem * (nat -> Proc))) (out0 out1 : text) : option (option (list Z) * option (list Z) * option Z * option Z) :=
  match r with
  | Some (fs, ps) => Some (fs_file fs out0, fs_file fs out1, exit_of (ps 0%nat), exit_of (ps 1%nat))
  | None => None
  end.

Lemma seen_history : forall jobs fs0 who out0 out1 a b c d,
  seen_end (play jobs who fs0 (fun _ => Starting)) out0 out1 = Some (a, b, Some c, Some d) ->
  exists fs ps t t', history jobs fs0 (rev who) fs ps /\ ps 0%nat = Exited c t /\ ps 1%nat = Exited d t' /\ fs_file fs out0 = a /\ fs_file fs out1 = b.
Proof.
  intros jobs fs0 who out0 out1 a b c d H.
  destruct (play jobs who fs0 (fun _ => Starting)) as [[fs ps]|] eqn:P; [|discriminate]. cbn [seen_end] in H.
  injection H as A B C D. destruct (ps 0%nat) as [| | | |c0 t] eqn:E0; try discriminate. destruct (ps 1%nat) as [| | | |c1 t'] eqn:E1; try discriminate.
  injection C as <-. injection D as <-. exists fs, ps, t, t'. split; [|auto].
  rewrite <- (app_nil_r (rev who)). apply (play_history jobs fs0 who [] fs0 (fun _ => Starting)); [apply history_start|exact P].
Qed.

(** two calls without -o *)
Definition jobs_default (i : nat) : Job := match i with O => job "a.asm" "a.out" | _ => job "b.asm" "a.out" end.
(** the file [out] after a run of [main] *)
Definition main_file (r : M ProcResult) (out : text) : option (list Z) := match r with Ret (_, _, fs) => fs_file fs out | _ => None end.

Theorem C64_same_output : exists fs0 who fs ps t t',
  history jobs_default fs0 who fs ps /\ ps 0%nat = Exited 0 t /\ ps 1%nat = Exited 0 t' /\
  fs_file fs (T "a.out") <> main_file (main true no_failure fs0 (T "a.asm") (T "a.out")) (T "a.out") /\
  fs_file fs (T "a.out") <> main_file (main true no_failure fs0 (T "b.asm") (T "a.out")) (T "a.out").
Proof.
  exists (two_sources (T "LDA #1") (T "NOP")), (rev [0;0;1;1;0;1;0;0;1;1]%nat).
  destruct (seen_history jobs_default (two_sources (T "LDA #1") (T "NOP")) [0;0;1;1;0;1;0;0;1;1]%nat (T "a.out") (T "a.out") (Some [234; 1]) (Some [234; 1]) 0 0)
    as (fs & ps & t & t' & H & E0 & E1 & F & _); [vm_compute; reflexivity|].
  exists fs, ps, t, t'. split; [exact H|]. split; [exact E0|]. split; [exact E1|]. rewrite F. split; vm_compute; discriminate.
Qed.

(** any number of calls, each with its own output *)
Definition jobs_apart (i : nat) : Job :=
  match i with O => job "a.asm" "a.bin" | 1%nat => job "b.asm" "b.bin" | _ => mkJob (T "-") (repeat "c"%char i) true no_failure end.

Example C64_example : apart jobs_apart /\ exists fs0 who fs ps t t', history jobs_apart fs0 who fs ps /\
  ps 0%nat = Exited 0 t /\ ps 1%nat = Exited 0 t' /\ fs_file fs (T "a.bin") = Some [169; 1] /\ fs_file fs (T "b.bin") = Some [234].
Proof.
  split.
  { split.
    - intros [|[|i]] [|[|k]] N H; try congruence; cbn [jobs_apart j_out job] in H; try discriminate H.
      apply (f_equal (@List.length ascii)) in H. rewrite !repeat_length in H. congruence.
    - intros [|[|i]] [|[|k]] H; cbn [jobs_apart j_out j_src job] in H; try discriminate H. }
  exists (two_sources (T "LDA #1") (T "NOP")), (rev [0;0;1;1;0;1;0;0;1;1]%nat).
  destruct (seen_history jobs_apart (two_sources (T "LDA #1") (T "NOP")) [0;0;1;1;0;1;0;0;1;1]%nat (T "a.bin") (T "b.bin") (Some [169; 1]) (Some [234]) 0 0)
    as (fs & ps & t & t' & H); [vm_compute; reflexivity|].
  exists fs, ps, t, t'. exact H.
Qed.

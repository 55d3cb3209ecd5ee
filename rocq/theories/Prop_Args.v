(** Prop_Args.v -- the command line: C44, C47. *)
From Verif Require Import Base Proof_Base Model_Opcode Model_Error Model_Main Model_Args.

(** ** C44 is false: the table has no end entry, so the library reads behind it, whatever
    the command line *)
Theorem C44_refuted : forall init_ok env fs events, run init_ok env fs options events = Undef UbIndex.
Proof. reflexivity. Qed.

(** it is read within bounds exactly when it has an end entry *)
Theorem C44_needs_end : forall table,
  (exists n, count_options table = Ret n /\ 0 <= n < Z.of_nat (List.length table)) <-> exists o, In o table /\ option_is_end o = true.
Proof.
  assert (G : forall done rest fuel, (List.length rest < fuel)%nat ->
    ((exists n, scan_options fuel (done ++ rest) (Z.of_nat (List.length done)) = Ret n /\ 0 <= n < Z.of_nat (List.length (done ++ rest))) <->
     exists o, In o rest /\ option_is_end o = true)).
  { intros done rest. revert done. induction rest as [|x rest IH]; intros done fuel F; (destruct fuel as [|fuel]; [lia|]); cbn [scan_options].
    - assert (get (done ++ []) (Z.of_nat (List.length done)) = Undef UbIndex) as ->.
      { rewrite app_nil_r. unfold get. rewrite Nat2Z.id.
        destruct (Z.of_nat (List.length done) <? 0); [reflexivity|]. rewrite (proj2 (nth_error_None done (List.length done))) by lia. reflexivity. }
      cbn [bind]. split; [intros (n & K & _); discriminate|intros (o & [] & _)].
    - assert (get (done ++ x :: rest) (Z.of_nat (List.length done)) = Ret x) as ->.
      { apply get_ret. rewrite Nat2Z.id. split; [lia|]. rewrite nth_error_app2, Nat.sub_diag by lia. reflexivity. }
      cbn [bind]. destruct (option_is_end x) eqn:E.
      + split; [intros _; exists x; split; [left; reflexivity|exact E]|]. intros _. eexists. split; [reflexivity|]. rewrite app_length. cbn. lia.
      + specialize (IH (done ++ [x]) fuel ltac:(cbn in F; lia)). rewrite <- app_assoc in IH. cbn [app] in IH. rewrite app_length in IH. cbn [List.length] in IH.
        replace (Z.of_nat (List.length done + 1)) with (Z.of_nat (List.length done) + 1) in IH by lia. rewrite IH.
        split; intros (o & Ho & Eo); exists o; (split; [|exact Eo]); [right; exact Ho|]. destruct Ho as [->|Ho]; [congruence|exact Ho]. }
  intro table. apply (G [] table). lia.
Qed.

(** ** C47: what the command line means.  The table is one the library can read. *)
Definition arguments (events : list Event) : list text :=
  List.concat (map (fun e => match e with EvArg v => [v] | _ => [] end) events).
Definition outputs (events : list Event) : list text :=
  List.concat (map (fun e => match e with EvOutput v => [v] | _ => [] end) events).

Lemma parse_events_spec : forall events k a, 0 <= k -> ~ In EvEnd events ->
  parse_events events k a =
  if (k + Z.of_nat (List.length (arguments events)) =? 1) ||
     ((1 <? k) && (Z.of_nat (List.length (arguments events)) =? 0))
  then Some (mkArgs (match arguments events with [] => arg_src a | x :: _ => Some x end) (last (outputs events) (arg_out a)))
  else None.
Proof.
  induction events as [|e events IH]; intros k a Hk NE.
  - cbn. destruct a as [s o]. cbn. rewrite Z.add_0_r.
    destruct (Z.eqb_spec k 0) as [->|N]; [reflexivity|]. destruct (Z.eqb_spec k 1); [reflexivity|]. destruct (Z.ltb_spec 1 k); [reflexivity|lia].
  - assert (NE' : ~ In EvEnd events) by (intro K; apply NE; right; exact K).
    destruct e as [v|v| |key]; cbn [parse_events parse_opt].
    + rewrite IH by assumption. cbn [arguments outputs map List.concat app arg_src arg_out].
      fold (arguments events). fold (outputs events).
      destruct (_ || _); [|reflexivity]. f_equal. f_equal. destruct (outputs events) as [|x l] eqn:E; [reflexivity|].
      cbn [last]. clear. revert x v. induction l as [|y l IHl]; intros x v; [reflexivity|]. cbn [last] in *. apply IHl; exact v.
    + cbn [arguments outputs map List.concat app]. fold (arguments events). fold (outputs events). cbn [List.length].
      destruct (Z.leb_spec 1 k).
      * destruct (Z.eqb_spec (k + Z.of_nat (S (List.length (arguments events)))) 1); [lia|].
        destruct (Z.eqb_spec (Z.of_nat (S (List.length (arguments events)))) 0); [lia|]. rewrite andb_false_r. reflexivity.
      * assert (k = 0) as -> by lia. rewrite IH by (lia || assumption). cbn [arg_src arg_out]. change (1 <? 0 + 1) with false. change (1 <? 0) with false. cbn [andb].
        rewrite !orb_false_r. destruct (arguments events) as [|x l]; cbn [List.length].
        -- reflexivity.
        -- destruct (Z.eqb_spec (0 + 1 + Z.of_nat (S (List.length l))) 1); [lia|]. destruct (Z.eqb_spec (0 + Z.of_nat (S (S (List.length l)))) 1); [lia|]. reflexivity.
    + destruct NE. left. reflexivity.
    + rewrite IH by assumption. reflexivity.
Qed.

(** exactly one argument: the source file; the last -o names the output, else a.out *)
Theorem C47_source : forall init_ok env fs table events src, ~ In EvEnd events ->
  (exists o, In o table /\ option_is_end o = true) -> arguments events = [src] ->
  run init_ok env fs table events = main init_ok env fs src (last (outputs events) (T "a.out")).
Proof.
  intros init_ok env fs table events src NE T1 E. apply C44_needs_end in T1. destruct T1 as (n & T1 & _).
  unfold run. rewrite T1. cbn [bind]. rewrite parse_events_spec by (lia || assumption). rewrite E. reflexivity.
Qed.

(** none or several: the usage; no file is touched *)
Theorem C47_usage : forall init_ok env fs table events, ~ In EvEnd events ->
  (exists o, In o table /\ option_is_end o = true) -> List.length (arguments events) <> 1%nat ->
  run init_ok env fs table events = Ret (64, [], fs).
Proof.
  intros init_ok env fs table events NE T1 E. apply C44_needs_end in T1. destruct T1 as (n & T1 & _).
  unfold run. rewrite T1. cbn [bind]. rewrite parse_events_spec by (lia || assumption).
  change (1 <? 0) with false. cbn [andb]. rewrite orb_false_r.
  destruct (Z.eqb_spec (0 + Z.of_nat (List.length (arguments events))) 1); [lia|]. reflexivity.
Qed.

Definition end_entry : ArgpOption := mkOption None 0 None 0 None 0.
Example C47_example : exists events, ~ In EvEnd events /\ (exists o, In o (options ++ [end_entry]) /\ option_is_end o = true) /\
  arguments events = [T "p.asm"] /\ last (outputs events) (T "a.out") = T "second".
Proof.
  exists [EvOutput (T "first"); EvArg (T "p.asm"); EvOutput (T "second")]. split; [intros [K|[K|[K|[]]]]; discriminate|].
  split; [exists end_entry; split; [right; left; reflexivity|reflexivity]|]. split; reflexivity.
Qed.
Example C44_example : count_options (options ++ [end_entry]) = Ret 1 /\ ~ (exists o, In o options /\ option_is_end o = true).
Proof. split; [reflexivity|]. intros (o & [<-|[]] & E). discriminate. Qed.

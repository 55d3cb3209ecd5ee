(** Prop_Argv.v -- the words of the command line: C71. *)
From Verif Require Import Base Proof_Base Model_Opcode Model_Error Model_Main Model_Args Model_Argv
  Spec_Argv Prop_Args.

Definition shorts : list (Z * bool) := Eval compute in short_options options.
Definition longs : list LongOption := long_options options.

(** a table that differs from the program's in having an end entry *)
Definition repaired (table : list ArgpOption) : Prop :=
  exists e rest, table = options ++ e :: rest /\ option_is_end e = true.

Lemma starts_with_ok : forall p s, starts_with p s = true <-> exists rest, s = p ++ rest.
Proof.
  induction p as [|a p IH]; intros s; cbn [starts_with].
  - split; [intros _; exists s; reflexivity|reflexivity].
  - destruct s as [|b s]; [split; [discriminate|intros (r & K); discriminate]|].
    rewrite andb_true_iff, Ascii.eqb_eq, IH. split.
    + intros [-> (r & ->)]. exists r. reflexivity.
    + intros (r & K). cbn in K. injection K as -> ->. split; [reflexivity|exists r; reflexivity].
Qed.

Lemma find_long_in : forall ls n o, find_long ls n = Some o -> In o ls /\ starts_with n (lo_name o) = true.
Proof.
  intros ls n o H. unfold find_long in H. destruct (find _ ls) as [x|] eqn:E.
  - injection H as ->. apply find_some in E. destruct E as [I E]. split; [exact I|]. apply text_eqb_eq in E. rewrite E.
    apply starts_with_ok. exists []. rewrite app_nil_r. reflexivity.
  - destruct (filter _ ls) as [|x [|]] eqn:F; try discriminate. injection H as ->.
    assert (I : In o (filter (fun o => starts_with n (lo_name o)) ls)) by (rewrite F; left; reflexivity).
    apply filter_In in I. exact I.
Qed.

Ltac prefixes H :=
  repeat (match type of H with
          | T _ = ?n ++ _ => cbn in H
          | _ :: _ = ?n ++ _ => destruct n as [|? n]; cbn [app] in H; [|injection H as <- H]
          | [] = ?n ++ _ => destruct n; [|discriminate]
          end).

Definition long_output := mkLong (T "output") RequiredArgument 111.
Definition long_name := mkLong (T "program-name") RequiredArgument OPT_PROGNAME.
Definition long_hang := mkLong (T "HANG") OptionalArgument OPT_HANG.
Definition request_key (r : Request) : Z := match r with RHelp => KEY_HELP | RUsage => OPT_USAGE | RVersion => KEY_VERSION end.
Definition request_name (r : Request) : string := match r with RHelp => "help" | RUsage => "usage" | RVersion => "version" end.
Definition long_request (r : Request) := mkLong (T (request_name r)) NoArgument (request_key r).

Lemma find_long_is : forall n, (abbreviates n "output" -> find_long longs n = Some long_output) /\
  (abbreviates n "program-name" -> find_long longs n = Some long_name) /\
  (abbreviates n "HANG" -> find_long longs n = Some long_hang) /\
  forall r, abbreviates n (request_name r) -> find_long longs n = Some (long_request r).
Proof.
  intro n. split; [|split; [|split; [|intros []]]]; intros [N (rest & E)]; cbn [request_name] in E;
    prefixes E; try (elim N; reflexivity); vm_compute; reflexivity.
Qed.

Lemma find_long_cases : forall n o, find_long longs n = Some o ->
  (abbreviates n "output" /\ o = long_output) \/ (abbreviates n "program-name" /\ o = long_name) \/
  (abbreviates n "HANG" /\ o = long_hang) \/ exists r, abbreviates n (request_name r) /\ o = long_request r.
Proof.
  intros n o H. assert (N : n <> []) by (intros ->; vm_compute in H; discriminate).
  apply find_long_in in H. destruct H as [I S]. apply starts_with_ok in S.
  destruct I as [<-|[<-|[<-|[<-|[<-|[<-|[]]]]]]]; cbn [lo_name] in S.
  - left. split; [split; [exact N|exact S]|reflexivity].
  - do 3 right. exists RHelp. split; [split; [exact N|exact S]|reflexivity].
  - do 3 right. exists RUsage. split; [split; [exact N|exact S]|reflexivity].
  - right; left. split; [split; [exact N|exact S]|reflexivity].
  - right; right; left. split; [split; [exact N|exact S]|reflexivity].
  - do 3 right. exists RVersion. split; [split; [exact N|exact S]|reflexivity].
Qed.

Lemma split_equals_join : forall w n v, split_equals w = (n, v) ->
  w = n ++ match v with Some x => "="%char :: x | None => [] end.
Proof.
  induction w as [|c w IH]; intros n v H; cbn [split_equals] in H; [injection H as <- <-; reflexivity|].
  destruct (Ascii.eqb_spec c "="%char) as [->|N]; [injection H as <- <-; reflexivity|].
  destruct (split_equals w) as [n' v']. injection H as <- <-. cbn [app]. f_equal. apply IH. reflexivity.
Qed.
Lemma split_equals_of : forall n v, ~ In "="%char n ->
  split_equals n = (n, None) /\ split_equals (n ++ "="%char :: v) = (n, Some v).
Proof.
  induction n as [|c n IH]; intros v H; cbn [split_equals app]; [split; reflexivity|].
  destruct (IH v ltac:(intro K; apply H; right; exact K)) as [A B]. rewrite A, B.
  destruct (Ascii.eqb_spec c "="%char) as [->|N]; [elim H; left; reflexivity|]. split; reflexivity.
Qed.
Lemma abbreviates_no_eq : forall n full, abbreviates n full -> ~ In "="%char (T full) -> ~ In "="%char n.
Proof. intros n full [_ (r & E)] H K. apply H. rewrite E. apply in_or_app. left. exact K. Qed.

(** ** One step of getopt *)
Definition key_of (v : option text) (f : Found) : Prop :=
  match v with
  | Some x => f = FoundOpt 111 (Some x)
  | None => exists k y, f = FoundOpt k y /\ (k = OPT_PROGNAME \/ k = OPT_HANG)
  end.

Lemma getopt_long : forall c n ws, getopt shorts longs (("-"%char :: "-"%char :: c :: n) :: ws) =
  let '(name, value) := split_equals (c :: n) in
  match find_long longs name with
  | None => ([FoundError], [])
  | Some o =>
    match lo_has_arg o, value with
    | NoArgument, Some _ => ([FoundError], [])
    | NoArgument, None => let '(l, rest) := getopt shorts longs ws in (FoundOpt (lo_val o) None :: l, rest)
    | RequiredArgument, None =>
      match ws with
      | [] => ([FoundError], [])
      | v :: ws' => let '(l, rest) := getopt shorts longs ws' in (FoundOpt (lo_val o) (Some v) :: l, rest)
      end
    | _, v => let '(l, rest) := getopt shorts longs ws in (FoundOpt (lo_val o) v :: l, rest)
    end
  end.
Proof. reflexivity. Qed.

Lemma plain_word : forall w, plain w <-> is_option_word w = false.
Proof.
  intro w. split.
  - intro P. destruct w as [|c [|d w]]; try reflexivity; unfold is_option_word; [destruct c as [[] [] [] [] [] [] [] []]; reflexivity|].
    destruct (Ascii.eqb_spec c "-"%char) as [->|N]; [elim (P d w); reflexivity|].
    destruct c as [[] [] [] [] [] [] [] []]; try reflexivity. elim N. reflexivity.
  - intros E c w' ->. discriminate.
Qed.

Lemma step_plain : forall w ws l a, plain w -> getopt shorts longs ws = (l, a) -> getopt shorts longs (w :: ws) = (l, w :: a).
Proof.
  intros w ws l a P G. cbn [getopt].
  assert (text_eqb w (T "--") = false) as -> by (apply text_eqb_neq; intros ->; apply (P "-"%char []); reflexivity).
  rewrite (proj1 (plain_word w) P). cbn [negb]. rewrite G. reflexivity.
Qed.

Ltac no_eq A := apply (abbreviates_no_eq _ _ A); vm_compute; intuition discriminate.

Lemma step_option : forall os v ws l a, One_option os v -> getopt shorts longs ws = (l, a) ->
  exists f, key_of v f /\ getopt shorts longs (os ++ ws) = (f :: l, a).
Proof.
  intros os v ws l a O G. destruct O as [v|v V|n v A|n v A|n v A|n v A|n v A V].
  - eexists. split; [reflexivity|]. cbn [getopt app T list_ascii_of_string].
    change (text_eqb ["-"%char; "o"%char] ["-"%char; "-"%char]) with false. cbv iota. cbn [is_option_word negb].
    change (starts_with ["-"%char; "-"%char] ["-"%char; "o"%char]) with false. cbv iota. cbn [skipn].
    change (short_word shorts ["o"%char]) with (@nil Found, Some 111). cbv iota beta. rewrite G. reflexivity.
  - eexists. split; [reflexivity|]. destruct v as [|c v]; [elim V; reflexivity|]. cbn [getopt app T list_ascii_of_string].
    change (text_eqb ("-"%char :: "o"%char :: c :: v) ["-"%char; "-"%char]) with false. cbv iota. cbn [is_option_word negb].
    change (starts_with ["-"%char; "-"%char] ("-"%char :: "o"%char :: c :: v)) with false. cbv iota. cbn [skipn].
    change (short_word shorts ("o"%char :: c :: v)) with ([FoundOpt 111 (Some (c :: v))], @None Z). cbv iota beta. rewrite G. reflexivity.
  - eexists. split; [reflexivity|]. destruct n as [|c n]; [destruct A as [A _]; elim A; reflexivity|].
    cbn [app T list_ascii_of_string]. rewrite getopt_long.
    rewrite (proj1 (split_equals_of (c :: n) [] ltac:(no_eq A))), (proj1 (find_long_is _) A). cbn [lo_has_arg lo_val long_output]. rewrite G. reflexivity.
  - eexists. split; [reflexivity|]. destruct n as [|c n]; [destruct A as [A _]; elim A; reflexivity|].
    cbn [app T list_ascii_of_string]. rewrite getopt_long, app_comm_cons.
    rewrite (proj2 (split_equals_of (c :: n) v ltac:(no_eq A))), (proj1 (find_long_is _) A). cbn [lo_has_arg lo_val long_output]. rewrite G. reflexivity.
  - exists (FoundOpt OPT_PROGNAME (Some v)). split; [do 2 eexists; split; [reflexivity|left; reflexivity]|]. destruct n as [|c n]; [destruct A as [A _]; elim A; reflexivity|].
    cbn [app T list_ascii_of_string]. rewrite getopt_long.
    rewrite (proj1 (split_equals_of (c :: n) [] ltac:(no_eq A))), (proj1 (proj2 (find_long_is _)) A). cbn [lo_has_arg lo_val long_name]. rewrite G. reflexivity.
  - exists (FoundOpt OPT_PROGNAME (Some v)). split; [do 2 eexists; split; [reflexivity|left; reflexivity]|]. destruct n as [|c n]; [destruct A as [A _]; elim A; reflexivity|].
    cbn [app T list_ascii_of_string]. rewrite getopt_long, app_comm_cons.
    rewrite (proj2 (split_equals_of (c :: n) v ltac:(no_eq A))), (proj1 (proj2 (find_long_is _)) A). cbn [lo_has_arg lo_val long_name]. rewrite G. reflexivity.
  - destruct n as [|c n]; [destruct A as [A _]; elim A; reflexivity|].
    assert (exists x, split_equals ((c :: n) ++ v) = (c :: n, x)) as (x & E).
    { destruct V as [->|(v' & ->)]; [rewrite app_nil_r; exists None; apply (split_equals_of _ []); no_eq A|].
      exists (Some v'). apply (split_equals_of _ v'). no_eq A. }
    exists (FoundOpt OPT_HANG x). split; [do 2 eexists; split; [reflexivity|right; reflexivity]|].
    cbn [app T list_ascii_of_string]. rewrite getopt_long. cbn [app] in E. rewrite E, (proj1 (proj2 (proj2 (find_long_is _))) A). cbn [lo_has_arg lo_val long_hang]. rewrite G.
    destruct x; reflexivity.
Qed.

Lemma short_request : forall c r w ws, (c = "?"%char /\ r = RHelp) \/ (c = "V"%char /\ r = RVersion) ->
  exists l a, getopt shorts longs (("-"%char :: c :: w) :: ws) = (FoundOpt (request_key r) None :: l, a).
Proof.
  intros c r w ws H. cbn [getopt].
  assert (text_eqb ("-"%char :: c :: w) (T "--") = false) as -> by (destruct H as [[-> _]|[-> _]]; reflexivity).
  cbn [is_option_word negb T list_ascii_of_string].
  assert (starts_with ["-"%char; "-"%char] ("-"%char :: c :: w) = false) as -> by (destruct H as [[-> _]|[-> _]]; reflexivity).
  cbn [skipn].
  assert (exists f nx, short_word shorts (c :: w) = (FoundOpt (request_key r) None :: f, nx)) as (f & nx & ->).
  { destruct H as [[-> ->]|[-> ->]];
      (match goal with |- context [short_word shorts (?c :: w)] =>
         change (short_word shorts (c :: w)) with
           (let '(l, next) := short_word shorts w in (FoundOpt (code c) None :: l, next)) end;
       destruct (short_word shorts w) as [f nx]; exists f, nx; reflexivity). }
  destruct nx; [destruct ws|]; repeat (match goal with |- context [getopt ?a ?b ?c] => destruct (getopt a b c) end); cbn [app]; eauto.
Qed.

Lemma step_request : forall w ws r, Request_word w r ->
  exists l a, getopt shorts longs (w :: ws) = (FoundOpt (request_key r) None :: l, a).
Proof.
  assert (LONG : forall n ws r, abbreviates n (request_name r) ->
    exists l a, getopt shorts longs ((T "--" ++ n) :: ws) = (FoundOpt (request_key r) None :: l, a)).
  { intros n ws r A. destruct n as [|c n]; [destruct A as [A _]; elim A; reflexivity|].
    cbn [app T list_ascii_of_string]. rewrite getopt_long.
    assert (NE : ~ In "="%char (c :: n)) by (apply (abbreviates_no_eq _ _ A); destruct r; vm_compute; intuition discriminate).
    rewrite (proj1 (split_equals_of (c :: n) [] NE)), (proj2 (proj2 (proj2 (find_long_is _))) r A).
    cbn [lo_has_arg lo_val long_request]. destruct (getopt shorts longs ws) as [l a]. eauto. }
  intros w ws r [n A|n A|n A|w'|w'].
  - apply (LONG n ws RHelp A).
  - apply (LONG n ws RUsage A).
  - apply (LONG n ws RVersion A).
  - apply (short_request "?"%char RHelp w' ws). auto.
  - apply (short_request "V"%char RVersion w' ws). auto.
Qed.

(** every command line starts in one of these ways *)
Lemma first_words : forall words,
  words = [] \/ (exists ws, words = T "--" :: ws) \/ (exists w ws, words = w :: ws /\ plain w) \/
  (exists os v ws, words = os ++ ws /\ One_option os v /\ os <> []) \/ (exists w ws r, words = w :: ws /\ Request_word w r) \/
  exists a, getopt shorts longs words = ([FoundError], a) \/ exists l, getopt shorts longs words = (FoundError :: l, a).
Proof.
  intros [|w ws]; [left; reflexivity|right].
  destruct (text_eqb w (T "--")) eqn:E1; [apply text_eqb_eq in E1; left; exists ws; congruence|right].
  destruct (is_option_word w) eqn:E2; [right|left; exists w, ws; split; [reflexivity|apply plain_word; exact E2]].
  destruct w as [|c0 [|c w]]; try discriminate; [destruct c0 as [[] [] [] [] [] [] [] []]; discriminate|].
  assert (c0 = "-"%char) as -> by (destruct c0 as [[] [] [] [] [] [] [] []]; cbn in E2; (reflexivity || discriminate)).
  destruct (Ascii.eqb_spec "-"%char c) as [<-|NC].
  - destruct w as [|c w]; [discriminate|]. pose proof (getopt_long c w ws) as G.
    destruct (split_equals (c :: w)) as [name value] eqn:ES. pose proof (split_equals_join _ _ _ ES) as W. rewrite W.
    change ("-"%char :: "-"%char :: name ++ match value with Some x => "="%char :: x | None => [] end)
      with (T "--" ++ name ++ match value with Some x => T "=" ++ x | None => [] end).
    destruct (find_long longs name) as [lo|] eqn:FL; [|right; right; rewrite W in G; eexists; left; exact G].
    destruct (find_long_cases _ _ FL) as [[A ->]|[[A ->]|[[A ->]|(r & A & ->)]]]; cbn [lo_has_arg lo_val long_output long_name long_hang long_request] in G.
    + destruct value as [v|]; [left; exists [T "--" ++ name ++ T "=" ++ v], (Some v), ws; split; [reflexivity|]; split; [apply one_output_eq; exact A|discriminate]|].
      rewrite app_nil_r. destruct ws as [|v ws]; [right; right; rewrite W, app_nil_r in G; eexists; left; exact G|].
      left. exists [T "--" ++ name; v], (Some v), ws. split; [reflexivity|]. split; [apply one_output; exact A|discriminate].
    + destruct value as [v|]; [left; exists [T "--" ++ name ++ T "=" ++ v], None, ws; split; [reflexivity|]; split; [apply one_name_eq; exact A|discriminate]|].
      rewrite app_nil_r. destruct ws as [|v ws]; [right; right; rewrite W, app_nil_r in G; eexists; left; exact G|].
      left. exists [T "--" ++ name; v], None, ws. split; [reflexivity|]. split; [apply one_name; exact A|discriminate].
    + left. eexists [_], None, ws. split; [reflexivity|]. split; [|discriminate]. apply one_hang; [exact A|].
      destruct value as [v|]; [right; exists v; reflexivity|left; reflexivity].
    + destruct value as [v|]; [right; right; rewrite W in G; eexists; left; exact G|]. rewrite app_nil_r.
      right; left. exists (T "--" ++ name), ws, r. split; [reflexivity|]. destruct r; constructor; exact A.
  - destruct (Z.eqb_spec 111 (code c)) as [K|N1].
    + assert (c = "o"%char) as -> by (apply code_inj; rewrite <- K; reflexivity).
      destruct w as [|d w].
      * destruct ws as [|v ws]; [right; right; eexists; left; reflexivity|].
        left. exists [T "-o"; v], (Some v), ws. split; [reflexivity|]. split; [constructor|discriminate].
      * left. exists [T "-o" ++ d :: w], (Some (d :: w)), ws. split; [reflexivity|]. split; [constructor; discriminate|discriminate].
    + destruct (Z.eqb_spec 63 (code c)) as [K|N2].
      { assert (c = "?"%char) as -> by (apply code_inj; rewrite <- K; reflexivity).
        right; left. exists (T "-?" ++ w), ws, RHelp. split; [reflexivity|constructor]. }
      destruct (Z.eqb_spec 86 (code c)) as [K|N3].
      { assert (c = "V"%char) as -> by (apply code_inj; rewrite <- K; reflexivity).
        right; left. exists (T "-V" ++ w), ws, RVersion. split; [reflexivity|constructor]. }
      right; right. cbn [getopt]. rewrite E1, E2. cbn [negb starts_with T list_ascii_of_string]. rewrite Ascii.eqb_refl. cbn [andb].
      destruct (Ascii.eqb_spec "-"%char c) as [K|_]; [elim NC; exact K|]. cbn [andb skipn short_word].
      assert (find (fun p : Z * bool => fst p =? code c) shorts = None) as ->.
      { unfold shorts. cbn [find fst].
        destruct (Z.eqb_spec 111 (code c)); [lia|]. destruct (Z.eqb_spec 63 (code c)); [lia|]. destruct (Z.eqb_spec 86 (code c)); [lia|]. reflexivity. }
      destruct (getopt shorts longs ws) as [l a]. exists a. right. exists l. reflexivity.
Qed.

Lemma decide_key : forall v f l a, key_of v f -> decide (f :: l) a =
  match decide l a, v with DRun es, Some x => DRun (EvOutput x :: es) | d, _ => d end.
Proof.
  intros [x|] f l a K; cbn [key_of] in K; [subst f; cbn [decide]; destruct (decide l a); reflexivity|].
  destruct K as (k & y & -> & [-> | ->]); cbn [decide]; cbn; destruct (decide l a); reflexivity.
Qed.

Lemma decide_args : forall l a b, match decide l a with
  | DRun es => exists pre, es = pre ++ map EvArg a /\ decide l b = DRun (pre ++ map EvArg b)
  | d => decide l b = d end.
Proof.
  induction l as [|[k v|] l IH]; intros a b; cbn [decide]; [exists []; split; reflexivity| |reflexivity].
  destruct (_ || _ || _); [reflexivity|]. destruct (_ || _); [apply IH|]. specialize (IH a b).
  destruct (decide l a) as [es'|key|]; [|rewrite IH; reflexivity|rewrite IH; reflexivity].
  destruct IH as (pre & -> & ->). destruct (k =? 111); [destruct v as [x|]|destruct v];
    (eexists (_ :: pre); split; reflexivity).
Qed.

(** the command line as the library takes it *)
Definition verdict (words : list text) : Decision :=
  decide (fst (getopt shorts longs words)) (snd (getopt shorts longs words)).

Lemma verdict_command : forall words o a, Command words o a -> verdict words = DRun (map EvOutput o ++ map EvArg a).
Proof.
  intros words o a C. enough (exists l, getopt shorts longs words = (l, a) /\ decide l a = DRun (map EvOutput o ++ map EvArg a)) as (l & G & D).
  { unfold verdict. rewrite G. exact D. }
  induction C as [|w ws o a P C IH|os v ws o a O C IH|ws]; try (destruct IH as (l & G & D)).
  - exists []. split; reflexivity.
  - exists l. split; [apply step_plain; assumption|]. pose proof (decide_args l a (w :: a)) as K. rewrite D in K.
    destruct K as (pre & E & K). apply app_inv_tail in E. subst pre. exact K.
  - destruct (step_option _ _ _ _ _ O G) as (f & K & G'). exists (f :: l). split; [exact G'|].
    rewrite (decide_key v f l a K), D. destruct v; reflexivity.
  - exists []. split; reflexivity.
Qed.

Lemma verdict_asks : forall words r, Asks words r -> verdict words = DInfo (request_key r).
Proof.
  intros words r A. unfold verdict. induction A as [w ws r R|w ws r P A IH|os v ws r O A IH].
  - destruct (step_request _ ws _ R) as (l & a & ->). cbn [fst snd]. destruct r; reflexivity.
  - destruct (getopt shorts longs ws) as [l a] eqn:G. rewrite (step_plain _ _ _ _ P G). cbn [fst snd] in *.
    pose proof (decide_args l a (w :: a)) as K. rewrite IH in K. exact K.
  - destruct (getopt shorts longs ws) as [l a] eqn:G. destruct (step_option _ _ _ _ _ O G) as (f & K & ->). cbn [fst snd] in *.
    rewrite (decide_key v f l a K), IH. reflexivity.
Qed.

(** and nothing else *)
Lemma verdict_cases : forall n words, (List.length words <= n)%nat ->
  (exists o a, Command words o a) \/ (exists r, Asks words r) \/ verdict words = DBad.
Proof.
  induction n as [|n IH]; intros words L.
  { destruct words; [|cbn in L; lia]. left. exists [], []. constructor. }
  destruct (first_words words) as [->|[(ws & ->)|[(w & ws & -> & P)|[(os & v & ws & -> & O & NE)|[(w & ws & r & -> & R)|(a & [G|(l & G)])]]]]].
  - left. exists [], []. constructor.
  - left. exists [], ws. constructor.
  - destruct (IH ws ltac:(cbn in L; lia)) as [(o & a & C)|[(r & A)|B]].
    + left. exists o, (w :: a). constructor; assumption.
    + right; left. exists r. apply asks_arg; assumption.
    + right; right. unfold verdict in *. destruct (getopt shorts longs ws) as [l a] eqn:G. rewrite (step_plain _ _ _ _ P G). cbn [fst snd] in *.
      pose proof (decide_args l a (w :: a)) as K. rewrite B in K. exact K.
  - rewrite app_length in L. destruct (IH ws) as [(o & a & C)|[(r & A)|B]].
    { destruct os; [elim NE; reflexivity|cbn in L; lia]. }
    + left. eexists _, a. apply cmd_option; eassumption.
    + right; left. exists r. eapply asks_option; eassumption.
    + right; right. unfold verdict in *. destruct (getopt shorts longs ws) as [l a] eqn:G.
      destruct (step_option _ _ _ _ _ O G) as (f & K & ->). cbn [fst snd] in *. rewrite (decide_key v f l a K), B. reflexivity.
  - right; left. exists r. apply asks_here. exact R.
  - right; right. unfold verdict. rewrite G. reflexivity.
  - right; right. unfold verdict. rewrite G. reflexivity.
Qed.

Lemma repaired_count : forall table, repaired table ->
  count_options table = Ret 1 /\ firstn 1 table = options /\ exists o, In o table /\ option_is_end o = true.
Proof.
  intros table (e & rest & -> & E). split; [|split; [reflexivity|exists e; split; [right; left; reflexivity|exact E]]].
  unfold count_options. cbn [app options List.length scan_options].
  change (get (mkOption (Some (T "output")) 111 (Some (T "FILE")) 0 (Some (T "Place assembled binary into <FILE>")) 0 :: e :: rest) 0)
    with (Ret (mkOption (Some (T "output")) 111 (Some (T "FILE")) 0 (Some (T "Place assembled binary into <FILE>")) 0)).
  cbn [bind]. change (0 + 1) with 1.
  change (get (mkOption (Some (T "output")) 111 (Some (T "FILE")) 0 (Some (T "Place assembled binary into <FILE>")) 0 :: e :: rest) 1)
    with (Ret e). cbn [bind]. change (option_is_end (mkOption (Some (T "output")) 111 (Some (T "FILE")) 0 (Some (T "Place assembled binary into <FILE>")) 0)) with false.
  cbv iota. rewrite E. reflexivity.
Qed.

Lemma run_argv_is : forall info init_ok env fs table words, repaired table ->
  run_argv info init_ok env fs table words =
  match verdict words with
  | DBad => Ret (EX_USAGE, [], fs)
  | DInfo k => Ret (EXIT_SUCCESS, info k, fs)
  | DRun events => run init_ok env fs table events
  end.
Proof.
  intros info init_ok env fs table words R. destruct (repaired_count _ R) as (A & B & _). unfold run_argv. rewrite A. cbn [bind].
  change (Z.to_nat 1) with 1%nat. rewrite B. change (short_options options) with shorts. change (long_options options) with longs.
  unfold verdict. destruct (getopt shorts longs words) as [l a]. reflexivity.
Qed.

Lemma events_of_command : forall o a, arguments (map EvOutput o ++ map EvArg a) = a /\
  outputs (map EvOutput o ++ map EvArg a) = o /\ ~ In EvEnd (map EvOutput o ++ map EvArg a).
Proof.
  intros o a. unfold arguments, outputs. rewrite !map_app, !concat_app, !map_map. cbn.
  assert (N : forall (B : Type) (l : list text), List.concat (map (fun _ => @nil B) l) = []) by (induction l; cbn; auto).
  assert (S : forall l : list text, List.concat (map (fun x => [x]) l) = l) by (induction l; cbn; congruence).
  rewrite !N, !S, app_nil_r. split; [reflexivity|]. split; [reflexivity|].
  intro K. apply in_app_or in K. destruct K as [K|K]; apply in_map_iff in K; destruct K as (x & K & _); discriminate.
Qed.

(** ** C71: the spelling and the order of the words do not matter *)
Theorem C71_run : forall info init_ok env fs table words outs src, repaired table -> Command words outs [src] ->
  run_argv info init_ok env fs table words = main init_ok env fs src (last outs (T "a.out")).
Proof.
  intros info init_ok env fs table words outs src R C. rewrite run_argv_is, (verdict_command _ _ _ C) by exact R.
  destruct (events_of_command outs [src]) as (A & O & N). rewrite <- O at 2.
  apply C47_source; [exact N|apply repaired_count; exact R|exact A].
Qed.

(** no argument or several: the usage, exit status 64 *)
Theorem C71_usage : forall info init_ok env fs table words outs args, repaired table -> Command words outs args ->
  List.length args <> 1%nat -> run_argv info init_ok env fs table words = Ret (64, [], fs).
Proof.
  intros info init_ok env fs table words outs args R C L. rewrite run_argv_is, (verdict_command _ _ _ C) by exact R.
  destruct (events_of_command outs args) as (A & O & N). apply C47_usage; [exact N|apply repaired_count; exact R|rewrite A; exact L].
Qed.

(** the help, the usage or the version is printed, nothing else happens *)
Theorem C71_request : forall info init_ok env fs table words r, repaired table -> Asks words r ->
  run_argv info init_ok env fs table words = Ret (0, info (request_key r), fs).
Proof. intros info init_ok env fs table words r R A. rewrite run_argv_is, (verdict_asks _ _ A) by exact R. reflexivity. Qed.

(** any other words are refused and no file is touched *)
Theorem C71_otherwise : forall info init_ok env fs table words, repaired table ->
  (forall outs args, ~ Command words outs args) -> (forall r, ~ Asks words r) ->
  run_argv info init_ok env fs table words = Ret (64, [], fs).
Proof.
  intros info init_ok env fs table words R N1 N2. rewrite run_argv_is by exact R.
  destruct (verdict_cases _ words (le_n _)) as [(o & a & C)|[(r & A)|B]].
  - elim (N1 _ _ C).
  - elim (N2 _ A).
  - rewrite B. reflexivity.
Qed.

(** a command line has one meaning *)
Theorem C71_one_meaning : forall words, (forall o a o' a', Command words o a -> Command words o' a' -> o = o' /\ a = a') /\
  (forall o a r, Command words o a -> ~ Asks words r) /\ (forall r r', Asks words r -> Asks words r' -> r = r').
Proof.
  intro words. split; [|split].
  - intros o a o' a' C C'. apply verdict_command in C. apply verdict_command in C'. rewrite C in C'. injection C' as E.
    destruct (events_of_command o a) as (A1 & O1 & _). destruct (events_of_command o' a') as (A2 & O2 & _).
    rewrite E in A1, O1. split; congruence.
  - intros o a r C A. apply verdict_command in C. apply verdict_asks in A. congruence.
  - intros r r' A B. apply verdict_asks in A. apply verdict_asks in B. rewrite A in B. injection B as B.
    destruct r, r'; (reflexivity || discriminate).
Qed.

Example C71_example :
  repaired (options ++ [end_entry]) /\
  Command (map T ["--out=first"; "p.asm"; "-osecond"])%string (map T ["first"; "second"])%string [T "p.asm"] /\
  Command (map T ["-o"; "-x"; "--"; "-strange.asm"])%string [T "-x"] [T "-strange.asm"] /\
  Asks (map T ["p.asm"; "-o"; "x"; "--vers"; "-x"])%string RVersion /\
  ((forall o a, ~ Command (map T ["p.asm"; "-x"])%string o a) /\ (forall r, ~ Asks (map T ["p.asm"; "-x"])%string r)) /\
  ((forall o a, ~ Command (map T ["p.asm"; "-o"])%string o a) /\ (forall r, ~ Asks (map T ["p.asm"; "-o"])%string r)).
Proof.
  split; [exists end_entry, []; split; reflexivity|].
  split; [apply (cmd_option [T "--out=first"] (Some (T "first")) _ [T "second"]);
    [apply (one_output_eq (T "out") (T "first")); split; [discriminate|exists (T "put"); reflexivity]|];
    apply cmd_arg; [intros c w K; discriminate|]; apply (cmd_option [T "-osecond"] (Some (T "second")) [] []); [apply (one_o_joined (T "second")); discriminate|constructor]|].
  split; [apply (cmd_option [T "-o"; T "-x"] (Some (T "-x")) _ []); constructor|].
  split; [apply asks_arg; [intros c w K; discriminate|]; apply (asks_option [T "-o"; T "x"] (Some (T "x"))); [constructor|];
    apply asks_here; apply (rq_version (T "vers")); split; [discriminate|exists (T "ion"); reflexivity]|].
  split; (split; [intros o a C; apply verdict_command in C; discriminate|intros r A; apply verdict_asks in A; destruct r; discriminate]).
Qed.

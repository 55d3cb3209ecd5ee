(** Proof_Heap.v -- reasoning about the heap of Model_Memory.v: a heap is a permutation of a
    list of blocks. *)
From Coq Require Import Permutation.
From Verif Require Import Base Model_Opcode Model_Lexer Model_SymbolTable Model_ForwardRef Model_Memory.

Notation block := (nat * Cell)%type (only parsing).

(** the allocated blocks of [h] are those of [l] *)
Definition blocks (h : Heap) (l : list block) : Prop :=
  Permutation (h_cells h) l /\ NoDup (map fst (h_cells h)) /\
  Forall (fun b : block => (fst b < h_next h)%nat) (h_cells h).
(** whether one of the first [n] allocations fails *)
Definition failed (orc : Oracle) (w : bool) (n : nat) : Prop :=
  if w then exists k, (k < n)%nat /\ orc k = false else forall k, (k < n)%nat -> orc k = true.
Definition heap_is (orc : Oracle) (w : bool) (h : Heap) (l : list block) : Prop :=
  blocks h l /\ failed orc w (h_tries h).

(** no open FILE among the blocks *)
Definition nofile (l : list block) : Prop := Forall (fun b : block => snd b <> CFile) l.
Ltac nofile := repeat constructor; discriminate.
Lemma nofile_app : forall a b, nofile a -> nofile b -> nofile (a ++ b).
Proof. intros. apply Forall_app. auto. Qed.

Lemma heap_perm : forall {orc w} h l l', heap_is orc w h l -> Permutation l l' -> heap_is orc w h l'.
Proof. intros orc w h l l' ((P & N & F) & W) Q. split; [|exact W]. split; [etransitivity; eassumption|auto]. Qed.

(** permutations of concatenations *)
Lemma cons_app : forall (A : Type) (x : A) l, x :: l = [x] ++ l.
Proof. reflexivity. Qed.
Lemma perm_rot : forall (A : Type) (l a b : list A), Permutation l (b ++ a) -> Permutation l (a ++ b).
Proof. intros. etransitivity; [eassumption|apply Permutation_app_comm]. Qed.
Lemma perm_head : forall (A : Type) (a l r : list A), Permutation l r -> Permutation (a ++ l) (a ++ r).
Proof. intros. apply Permutation_app_head. assumption. Qed.
Lemma perm_end : forall (A : Type) (a r : list A), Permutation [] r -> Permutation a (a ++ r).
Proof.
  intros A a r H. etransitivity; [|apply Permutation_app_head; exact H]. rewrite app_nil_r. reflexivity.
Qed.

Ltac split_cons :=
  repeat match goal with
         | |- context [?x :: ?l] => lazymatch l with [] => fail | _ => rewrite (cons_app _ x l) end
         end.
Ltac perm_go n :=
  match goal with
  | |- Permutation ?a ?a => reflexivity
  | |- Permutation (?a ++ _) (?a ++ _) => apply perm_head; perm_go 30%nat
  | |- Permutation _ (_ ++ _) =>
    lazymatch n with
    | O => fail
    | S ?k => apply perm_rot; rewrite <- ?app_assoc; perm_go k
    end
  end.
(** a neutral end, so that every atom is followed by something *)
Lemma perm_nil : forall (A : Type) (l r : list A), Permutation (l ++ []) (r ++ []) -> Permutation l r.
Proof. intros A l r. rewrite !app_nil_r. auto. Qed.
Ltac drop_nils := repeat rewrite app_nil_r; cbn [app].
Ltac perm := rewrite ?app_nil_r; split_cons; rewrite <- ?app_assoc; cbn [app] in *;
  split_cons; rewrite <- ?app_assoc; perm_go 30%nat.


(** ** The operations *)
Lemma lookup_in : forall cells a c, NoDup (map fst cells) -> In (a, c) cells -> lookup a cells = Some c.
Proof.
  induction cells as [|[b d] cells IH]; intros a c N I; [destruct I|].
  cbn [map fst] in N. inversion N as [|x xs N1 N2]; subst. cbn [lookup].
  destruct I as [I|I].
  - injection I as -> ->. rewrite Nat.eqb_refl. reflexivity.
  - destruct (Nat.eqb_spec a b) as [-> |_]; [|apply IH; assumption].
    exfalso. apply N1. change b with (fst (b, c)). apply in_map. exact I.
Qed.
Lemma remove_perm : forall cells a c, lookup a cells = Some c -> Permutation cells ((a, c) :: remove a cells).
Proof.
  induction cells as [|[b d] cells IH]; intros a c H; [discriminate|]. cbn [lookup remove] in *.
  destruct (Nat.eqb_spec a b) as [-> |_].
  - injection H as ->. reflexivity.
  - etransitivity; [apply perm_skip; apply IH; exact H|]. apply perm_swap.
Qed.

Lemma load_spec : forall {orc w} h l a c, heap_is orc w h l -> In (a, c) l -> load h (Some a) = Ret c.
Proof.
  intros orc w h l a c ((P & N & _) & W) I. unfold load.
  rewrite (lookup_in (h_cells h) a c N); [reflexivity|].
  eapply Permutation_in; [symmetry; exact P|exact I].
Qed.

Lemma take_spec : forall {orc w} h l a c, heap_is orc w h ((a, c) :: l) ->
  lookup a (h_cells h) = Some c /\
  heap_is orc w (mkHeap (remove a (h_cells h)) (h_next h) (h_tries h)) l /\
  ~ In a (map fst (remove a (h_cells h))) /\ (a < h_next h)%nat.
Proof.
  intros orc w h l a c ((P & N & F) & W).
  assert (L : lookup a (h_cells h) = Some c).
  { apply lookup_in; [exact N|]. eapply Permutation_in; [symmetry; exact P|]. left; reflexivity. }
  assert (Q := remove_perm _ _ _ L).
  assert (N' := N). apply (Permutation_NoDup (Permutation_map fst Q)) in N'. cbn [map fst] in N'.
  inversion N' as [|x xs N1 N2]; subst.
  assert (F' := F). rewrite Forall_forall in F'.
  split; [exact L|]. split; [split; [split; [|split]|exact W]|split].
  - cbn [h_cells]. apply (Permutation_cons_inv (a := (a, c))). etransitivity; [symmetry; exact Q|exact P].
  - exact N2.
  - rewrite Forall_forall. intros b I. apply F'. eapply Permutation_in; [symmetry; exact Q|]. right; exact I.
  - exact N1.
  - change a with (fst (a, c)). apply F'. eapply Permutation_in; [symmetry; exact Q|]. left; reflexivity.
Qed.

Lemma free_spec : forall {orc w} h l a c, heap_is orc w h ((a, c) :: l) ->
  exists h', free h (Some a) = Ret h' /\ heap_is orc w h' l.
Proof.
  intros orc w h l a c H. destruct (take_spec _ _ _ _ H) as (L & R & _). unfold free. rewrite L. eauto.
Qed.
Lemma store_spec : forall {orc w} h l a c c', heap_is orc w h ((a, c) :: l) ->
  exists h', store h (Some a) c' = Ret h' /\ heap_is orc w h' ((a, c') :: l).
Proof.
  intros orc w h l a c c' H. destruct (take_spec _ _ _ _ H) as (L & ((P & N & F) & W) & I & LT).
  unfold store. rewrite L. eexists; split; [reflexivity|]. split; [split; [|split]|exact W].
  - cbn [h_cells] in *. apply perm_skip. exact P.
  - cbn [h_cells map fst] in *. constructor; assumption.
  - cbn [h_cells h_next] in *. constructor; assumption.
Qed.

Lemma grow_spec : forall h l c t, blocks h l ->
  blocks (mkHeap ((h_next h, c) :: h_cells h) (S (h_next h)) t) ((h_next h, c) :: l).
Proof.
  intros h l c t (P & N & F). split; [|split]; cbn [h_cells h_next map fst].
  - apply perm_skip. exact P.
  - constructor; [|exact N]. intros I. apply in_map_iff in I. destruct I as (b & E & I).
    rewrite Forall_forall in F. specialize (F b I). lia.
  - constructor; [cbn [fst]; lia|]. eapply Forall_impl; [|exact F]. intros b Hb. cbn in Hb. lia.
Qed.
Lemma malloc_spec : forall orc {w} c h l, heap_is orc w h l ->
  (exists a h', malloc orc c h = (Some a, h') /\ heap_is orc w h' ((a, c) :: l)) \/
  (exists h', malloc orc c h = (None, h') /\ heap_is orc true h' l).
Proof.
  intros orc w c h l (B & W). unfold malloc. destruct (orc (h_tries h)) eqn:E.
  - left. eexists _, _. split; [reflexivity|]. split; [apply grow_spec; exact B|].
    cbn [h_tries]. destruct w; cbn [failed] in *.
    + destruct W as (k & K & O). exists k. split; [lia|exact O].
    + intros k K. destruct (Nat.eq_dec k (h_tries h)) as [-> |D]; [exact E|]. apply W. lia.
  - right. eexists. split; [reflexivity|]. split.
    + destruct B as (P & N & F). split; [|split]; assumption.
    + cbn [h_tries failed]. exists (h_tries h). split; [lia|exact E].
Qed.
Lemma new_file_spec : forall {orc w} h l, heap_is orc w h l ->
  exists a h', new_file h = (Some a, h') /\ heap_is orc w h' ((a, CFile) :: l).
Proof.
  intros orc w h l (B & W). eexists _, _. split; [reflexivity|]. split; [apply grow_spec; exact B|exact W].
Qed.

(** the focused versions: the block may be anywhere *)
Lemma free_at : forall {orc w} h l a c r, heap_is orc w h l -> Permutation l ((a, c) :: r) ->
  exists h', free h (Some a) = Ret h' /\ heap_is orc w h' r.
Proof. intros orc w h l a c r H P. eapply free_spec, heap_perm; eassumption. Qed.
Lemma store_at : forall {orc w} h l a c c' r, heap_is orc w h l -> Permutation l ((a, c) :: r) ->
  exists h', store h (Some a) c' = Ret h' /\ heap_is orc w h' ((a, c') :: r).
Proof. intros orc w h l a c c' r H P. eapply store_spec, heap_perm; eassumption. Qed.
Lemma fclose_at : forall {orc w} h l a r, heap_is orc w h l -> Permutation l ((a, CFile) :: r) ->
  exists h', fclose h (Some a) = Ret h' /\ heap_is orc w h' r.
Proof.
  intros orc w h l a r H P. unfold fclose. rewrite (load_spec h ((a, CFile) :: r) a CFile (heap_perm _ _ _ H P)) by (left; reflexivity).
  cbn [bind]. eapply free_at; eassumption.
Qed.
Lemma fill_at : forall {orc w} h l a n s r, heap_is orc w h l -> Permutation l ((a, CStr n []) :: r) ->
  (List.length s < n)%nat ->
  exists h', fill_str h (Some a) s = Ret h' /\ heap_is orc w h' ((a, CStr n s) :: r).
Proof.
  intros orc w h l a n s r H P L. unfold fill_str. rewrite (load_spec h ((a, CStr n []) :: r) a (CStr n []) (heap_perm _ _ _ H P)) by (left; reflexivity).
  cbn [bind]. destruct (Nat.ltb_spec (List.length s) n); [|lia]. eapply store_at; eassumption.
Qed.

(** ** The blocks of the data structures *)
(** a token: the addresses of the struct and of its string *)
Definition tok_cells (t : nat * nat) : list block :=
  [(fst t, CToken (Some (snd t))); (snd t, CStr MAX_TOKEN_STR_LEN [])].
Definition seq_ptrs (toks : list (nat * nat)) : list ptr := map (fun t => Some (fst t)) toks.
Definition lexer_cells (a s : nat) (toks : list (nat * nat)) : list block :=
  (a, CLexer (Some s)) :: (s, CSeq (seq_ptrs toks)) :: flat_map tok_cells toks.

(** ** src/lexer.c and src/opcode.c *)
Lemma init_token_spec : forall orc {w} h l, heap_is orc w h l ->
  exists p h', init_token_h orc h = Ret (p, h') /\
  ((exists t, p = Some (fst t) /\ heap_is orc w h' (tok_cells t ++ l)) \/
   (p = None /\ exists leak, nofile leak /\ heap_is orc true h' (leak ++ l))).
Proof.
  intros orc w h l H. unfold init_token_h.
  destruct (malloc_spec orc CUninit h l H) as [(a & h1 & -> & H1)|(h1 & -> & H1)]; cbn [is_null].
  2:{ eexists _, _. split; [reflexivity|]. right. split; [reflexivity|]. exists []. split; [constructor|]. exact H1. }
  destruct (malloc_spec orc (CStr MAX_TOKEN_STR_LEN []) h1 _ H1) as [(b & h2 & -> & H2)|(h2 & -> & H2)];
    cbn [is_null].
  2:{ eexists _, _. split; [reflexivity|]. right. split; [reflexivity|].
      exists [(a, CUninit)]. split; [nofile|]. exact H2. }
  destruct (store_at h2 _ a CUninit (CToken (Some b)) ((b, CStr MAX_TOKEN_STR_LEN []) :: l) H2)
    as (h3 & -> & H3); [perm|]. cbn [bind].
  eexists _, _. split; [reflexivity|]. left. exists (a, b). split; [reflexivity|]. exact H3.
Qed.

Lemma init_tokens_spec : forall orc {w} n s toks h l,
  heap_is orc w h ((s, CSeq (seq_ptrs toks)) :: l) ->
  exists ok h', init_tokens_h orc n (Some s) h = Ret (ok, h') /\
  ((ok = true /\ exists toks', List.length toks' = n /\
     heap_is orc w h' ((s, CSeq (seq_ptrs (toks ++ toks'))) ::
                 flat_map tok_cells toks' ++ l)) \/
   (ok = false /\ exists leak, nofile leak /\ heap_is orc true h' (leak ++ l))).
Proof.
  intros orc w. induction n as [|n IH]; intros s toks h l H; cbn [init_tokens_h].
  - eexists _, _. split; [reflexivity|]. left. split; [reflexivity|]. exists []. rewrite app_nil_r. auto.
  - destruct (init_token_spec orc h _ H) as (p & h1 & -> & [(t & -> & H1)|(-> & leak & NF & H1)]); cbn [bind].
    + unfold load_seq. rewrite (load_spec h1 _ s (CSeq (seq_ptrs toks)) H1).
      2:{ apply in_or_app. right. left. reflexivity. }
      cbn [bind].
      destruct (store_at h1 _ s (CSeq (seq_ptrs toks)) (CSeq (seq_ptrs toks ++ [Some (fst t)])) (tok_cells t ++ l) H1)
        as (h2 & -> & H2); [perm|]. cbn [bind is_null].
      replace (seq_ptrs toks ++ [Some (fst t)])
        with (seq_ptrs (toks ++ [t])) in H2 by (unfold seq_ptrs; rewrite map_app; reflexivity).
      destruct (IH s (toks ++ [t]) h2 _ H2) as (ok & h3 & -> & [(-> & toks' & L & H3)|(-> & leak & NF & H3)]).
      * eexists _, _. split; [reflexivity|]. left. split; [reflexivity|]. exists (t :: toks').
        split; [cbn [List.length]; lia|]. rewrite <- app_assoc in H3. cbn [app] in H3.
        eapply heap_perm; [exact H3|]. cbn [flat_map]. perm.
      * eexists _, _. split; [reflexivity|]. right. split; [reflexivity|].
        exists (leak ++ tok_cells t). split; [apply nofile_app; [exact NF|nofile]|]. rewrite <- app_assoc. exact H3.
    + unfold load_seq. rewrite (load_spec h1 _ s (CSeq (seq_ptrs toks)) H1).
      2:{ apply in_or_app. right. left. reflexivity. }
      cbn [bind].
      destruct (store_at h1 _ s (CSeq (seq_ptrs toks)) (CSeq (seq_ptrs toks ++ [None])) (leak ++ l) H1)
        as (h2 & -> & H2); [perm|]. cbn [bind is_null].
      eexists _, _. split; [reflexivity|]. right. split; [reflexivity|].
      exists ((s, CSeq (seq_ptrs toks ++ [None])) :: leak). split; [constructor; [discriminate|exact NF]|]. exact H2.
Qed.

Lemma init_lexer_spec : forall orc {w} h l, heap_is orc w h l ->
  exists p h', init_lexer_h orc h = Ret (p, h') /\
  ((exists a s toks, p = Some a /\ List.length toks = 8%nat /\ heap_is orc w h' (lexer_cells a s toks ++ l)) \/
   (p = None /\ exists leak, nofile leak /\ heap_is orc true h' (leak ++ l))).
Proof.
  intros orc w h l H. unfold init_lexer_h.
  destruct (malloc_spec orc CUninit h l H) as [(a & h1 & -> & H1)|(h1 & -> & H1)]; cbn [is_null].
  2:{ eexists _, _. split; [reflexivity|]. right. split; [reflexivity|]. exists []. split; [constructor|]. exact H1. }
  unfold init_sequence_h.
  destruct (malloc_spec orc (CSeq []) h1 _ H1) as [(s & h2 & -> & H2)|(h2 & -> & H2)]; cbn [is_null bind].
  2:{ eexists _, _. split; [reflexivity|]. right. split; [reflexivity|]. exists [(a, CUninit)]. split; [nofile|]. exact H2. }
  destruct (init_tokens_spec orc 8 s [] h2 _ H2) as (ok & h3 & -> & [(-> & toks & L & H3)|(-> & leak & NF & H3)]);
    cbn [bind is_null].
  - destruct (store_at h3 _ a CUninit (CLexer (Some s))
      ((s, CSeq (seq_ptrs toks)) :: flat_map tok_cells toks ++ l) H3)
      as (h4 & -> & H4); [perm|]. cbn [bind].
    eexists _, _. split; [reflexivity|]. left. exists a, s, toks. auto.
  - eexists _, _. split; [reflexivity|]. right. split; [reflexivity|].
    exists (leak ++ [(a, CUninit)]). split; [apply nofile_app; [exact NF|nofile]|]. rewrite <- app_assoc. exact H3.
Qed.

Lemma init_instruction_spec : forall orc {w} h l, heap_is orc w h l ->
  exists p h', init_instruction_h orc h = Ret (p, h') /\
  ((exists a, p = Some a /\ heap_is orc w h' ((a, CInstr) :: l)) \/
   (p = None /\ heap_is orc true h' l)).
Proof.
  intros orc w h l H. unfold init_instruction_h.
  destruct (malloc_spec orc CUninit h l H) as [(a & h1 & -> & H1)|(h1 & -> & H1)]; cbn [is_null].
  2:{ eexists _, _. split; [reflexivity|]. right. auto. }
  destruct (store_spec h1 _ a _ CInstr H1) as (h2 & -> & H2). cbn [bind].
  eexists _, _. split; [reflexivity|]. left. eauto.
Qed.

Lemma destroy_token_spec : forall {orc w} h l t r, heap_is orc w h l -> Permutation l (tok_cells t ++ r) ->
  exists h', destroy_token_h h (Some (fst t)) = Ret h' /\ heap_is orc w h' r.
Proof.
  intros orc w h l t r H P. apply (heap_perm _ _ _ H) in P. unfold destroy_token_h. cbn [is_null].
  unfold load_token. rewrite (load_spec h _ (fst t) (CToken (Some (snd t))) P).
  2:{ left; reflexivity. }
  cbn [bind is_null].
  destruct (free_at h _ (snd t) (CStr MAX_TOKEN_STR_LEN []) ((fst t, CToken (Some (snd t))) :: r) P)
    as (h1 & -> & H1); [unfold tok_cells; perm|]. cbn [bind].
  eapply free_spec. exact H1.
Qed.

Lemma get_nth : forall (A : Type) (l : list A) i x, nth_error l i = Some x -> get l (Z.of_nat i) = Ret x.
Proof.
  intros A l i x H. unfold get. destruct (Z.ltb_spec (Z.of_nat i) 0); [lia|]. rewrite Nat2Z.id, H. reflexivity.
Qed.

Lemma destroy_tokens_spec : forall {orc w} todo done a s h l r,
  heap_is orc w h l ->
  Permutation l ((a, CLexer (Some s)) ::
      (s, CSeq (seq_ptrs (done ++ todo))) :: flat_map tok_cells todo ++ r) ->
  exists h', destroy_tokens_h (List.length todo) (Z.of_nat (List.length done)) (Some a) h = Ret h' /\
    heap_is orc w h' ((a, CLexer (Some s)) ::
      (s, CSeq (seq_ptrs (done ++ todo))) :: r).
Proof.
  intros orc w. induction todo as [|t todo IH]; intros done a s h l r H P; apply (heap_perm _ _ _ H) in P;
    cbn [List.length destroy_tokens_h].
  - eexists. split; [reflexivity|]. cbn [flat_map app] in P. exact P.
  - unfold load_lexer. rewrite (load_spec h _ a (CLexer (Some s)) P) by (left; reflexivity).
    cbn [bind]. unfold load_seq.
    rewrite (load_spec h _ s (CSeq (seq_ptrs (done ++ t :: todo))) P)
      by (right; left; reflexivity).
    cbn [bind]. rewrite (get_nth _ _ _ (Some (fst t))).
    2:{ unfold seq_ptrs; rewrite map_app, nth_error_app2; rewrite map_length; [|lia]. rewrite Nat.sub_diag. reflexivity. }
    cbn [bind].
    destruct (destroy_token_spec h _ t
      ((a, CLexer (Some s)) :: (s, CSeq (seq_ptrs (done ++ t :: todo))) ::
       flat_map tok_cells todo ++ r) P) as (h1 & -> & H1).
    { cbn [flat_map]. perm. }
    cbn [bind]. destruct (IH (done ++ [t]) a s h1 _ r H1) as (h2 & E & H2).
    { rewrite <- app_assoc. cbn [app]. reflexivity. }
    rewrite app_length, Nat2Z.inj_add in E. cbn [List.length] in E. change (Z.of_nat 1) with 1 in E.
    rewrite E. eexists. split; [reflexivity|]. rewrite <- app_assoc in H2. exact H2.
Qed.

Lemma destroy_lexer_spec : forall {orc w} h l a s toks r, heap_is orc w h l -> List.length toks = 8%nat ->
  Permutation l (lexer_cells a s toks ++ r) ->
  exists h', destroy_lexer_h h (Some a) = Ret h' /\ heap_is orc w h' r.
Proof.
  intros orc w h l a s toks r H L P. unfold destroy_lexer_h. cbn [is_null].
  destruct (destroy_tokens_spec toks [] a s h l r H) as (h1 & E & H1).
  { etransitivity; [exact P|]. unfold lexer_cells. perm. }
  rewrite L in E. change (Z.of_nat (List.length (@nil (nat * nat)))) with 0 in E. rewrite E. cbn [bind].
  unfold load_lexer. rewrite (load_spec h1 _ a (CLexer (Some s)) H1) by (left; reflexivity).
  cbn [bind].
  destruct (free_at h1 _ s (CSeq (seq_ptrs toks)) ((a, CLexer (Some s)) :: r) H1)
    as (h2 & -> & H2); [cbn [app]; perm|]. cbn [bind]. eapply free_spec. exact H2.
Qed.

Lemma destroy_instruction_spec : forall {orc w} h l a r, heap_is orc w h l -> Permutation l ((a, CInstr) :: r) ->
  exists h', destroy_instruction_h h (Some a) = Ret h' /\ heap_is orc w h' r.
Proof. intros orc w h l a r H P. unfold destroy_instruction_h. cbn [is_null]. eapply free_at; eassumption. Qed.

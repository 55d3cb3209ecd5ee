(** Proof_Check.v -- decision procedures for the relations of the specification on
    concrete texts.  They serve only the examples beside the theorems. *)
From Verif Require Import Base Proof_Base Model_Opcode Model_Lexer Spec_Isa Spec_Text Spec_Asm Proof_Chars Proof_Opcode.

Definition endb (c : ascii) : bool :=
  Ascii.eqb c ch_cr || Ascii.eqb c ch_nl || Ascii.eqb c ";"%char || Ascii.eqb c ch_nul || Ascii.eqb c (chr 255).
Definition blankb (c : ascii) : bool := Ascii.eqb c ch_sp || Ascii.eqb c ch_tab.
Definition delimb (c : ascii) : bool :=
  blankb c || endb c || Ascii.eqb c ","%char || Ascii.eqb c "("%char || Ascii.eqb c ")"%char.

Lemma endb_ok : forall c, endb c = true -> line_end c.
Proof. intros c H. unfold endb in H. rewrite !orb_true_iff, !Ascii.eqb_eq in H. unfold line_end. tauto. Qed.
Lemma blankb_ok : forall c, blankb c = true -> blank c.
Proof. intros c H. unfold blankb in H. rewrite !orb_true_iff, !Ascii.eqb_eq in H. exact H. Qed.
Lemma delimb_ok : forall c, delimb c = true -> delimiter c.
Proof.
  intros c H. unfold delimb in H. rewrite !orb_true_iff, !Ascii.eqb_eq in H. unfold delimiter.
  destruct H as [[[[H|H]|H]|H]|H]; auto 6 using endb_ok, blankb_ok.
Qed.

Definition punctb (c : ascii) : option tok :=
  if Ascii.eqb c "#"%char then Some THash else if Ascii.eqb c "("%char then Some TOpen else
  if Ascii.eqb c ")"%char then Some TClose else if Ascii.eqb c ","%char then Some TComma else
  if Ascii.eqb c "="%char then Some TEqual else if Ascii.eqb c "*"%char then Some TStar else None.

Lemma punctb_ok : forall c t, punctb c = Some t -> punct c t.
Proof.
  intros c t H. unfold punctb in H. unfold punct.
  repeat match type of H with (if Ascii.eqb c ?x then _ else _) = _ =>
    destruct (Ascii.eqb_spec c x) as [-> |]; [injection H as <-; tauto|] end. discriminate.
Qed.

(** words *)
Definition find_name (u : text) : option string :=
  option_map (fun '(n, _, _, _) => n) (find (fun '(n, _, _, _) => text_eqb (T n) u) table).

Lemma find_name_ok : forall u n, find_name u = Some n -> is_name n /\ u = T n.
Proof.
  intros u n H. unfold find_name in H. destruct (find _ table) as [[[[m md] op] b]|] eqn:F; [|discriminate].
  injection H as ->. apply find_some in F. destruct F as [F1 F2]. apply text_eqb_eq in F2.
  split; [|congruence]. exists md, op, b. exact F1.
Qed.

Lemma find_name_none : forall u, find_name u = None -> forall n, is_name n -> u <> T n.
Proof.
  intros u H n (md & op & b & Hin) ->. unfold find_name in H. destruct (find _ table) eqn:F; [discriminate|].
  pose proof (find_none _ _ F _ Hin) as K. cbn beta iota in K.
  assert (text_eqb (T n) (T n) = true) by (apply text_eqb_eq; reflexivity). congruence.
Qed.

Definition identm (w : text) : tok :=
  let u := map upper w in
  if text_eqb u (T "X") then TX else if text_eqb u (T "Y") then TY else if text_eqb u (T "A") then TA
  else match find_name u with Some n => TMnemonic n | None => TLabel u end.

Lemma identm_ok : forall w, ident_means w (identm w).
Proof.
  intro w. unfold identm.
  destruct (text_eqb (map upper w) (T "X")) eqn:EX; [apply means_x, text_eqb_eq; exact EX|].
  destruct (text_eqb (map upper w) (T "Y")) eqn:EY; [apply means_y, text_eqb_eq; exact EY|].
  destruct (text_eqb (map upper w) (T "A")) eqn:EA; [apply means_a, text_eqb_eq; exact EA|].
  destruct (find_name (map upper w)) as [n|] eqn:F.
  - destruct (find_name_ok _ _ F). apply means_mnemonic; auto.
  - apply means_label; [apply find_name_none; exact F| | |]; intro K; apply text_eqb_eq in K; congruence.
Qed.

Definition numb (b : base) (ds : text) : option Z :=
  if match ds with [] => true | _ => false end then None
  else if forallb (fun c => negb (converter b c =? ERROR_ILLEGAL_CHAR)) ds then
    let v := eval_digits b ds in if v <=? 0xFFFF then Some v else None
  else None.

Lemma numb_ok : forall b ds v, numb b ds = Some v -> number b ds v /\ v <= 0xFFFF.
Proof.
  intros b ds v H. unfold numb in H. destruct ds as [|c ds]; [discriminate|].
  destruct (forallb _ _) eqn:F; [|discriminate]. cbn zeta in H. destruct (Z.leb_spec (eval_digits b (c :: ds)) 0xFFFF); [|discriminate].
  injection H as <-. split; [|assumption]. apply number_eval; auto. discriminate.
Qed.

Definition dirb (w : text) : option directive :=
  let u := map upper w in
  if text_eqb u (T ".DEFINE") then Some DDefine else if text_eqb u (T ".EQU") then Some DEqu
  else if text_eqb u (T ".ORG") then Some DOrg else if text_eqb u (T ".END") then Some DEnd else None.

Lemma dirb_ok : forall w d, dirb w = Some d -> directive_means w d.
Proof.
  intros w d H. unfold dirb in H.
  destruct (text_eqb (map upper w) (T ".DEFINE")) eqn:E1; [injection H as <-; apply means_define, text_eqb_eq; exact E1|].
  destruct (text_eqb (map upper w) (T ".EQU")) eqn:E2; [injection H as <-; apply means_equ, text_eqb_eq; exact E2|].
  destruct (text_eqb (map upper w) (T ".ORG")) eqn:E3; [injection H as <-; apply means_org, text_eqb_eq; exact E3|].
  destruct (text_eqb (map upper w) (T ".END")) eqn:E4; [injection H as <-; apply means_end, text_eqb_eq; exact E4|]. discriminate.
Qed.

Definition wordb (w : text) : option tok :=
  match w with
  | [] => None
  | c :: ds =>
    if identb w && (List.length w <=? 63)%nat then Some (identm w)
    else if Ascii.eqb c "$"%char then option_map TNumber (numb Hex ds)
    else if Ascii.eqb c "%"%char then option_map TNumber (numb Bin ds)
    else if Ascii.eqb c "."%char then option_map TDirective (dirb w)
    else option_map TNumber (numb Dec w)
  end.

Lemma wordb_ok : forall w t, wordb w = Some t -> word literal16 w t.
Proof.
  intros [|c ds] t H; [discriminate|]. cbn [wordb] in H.
  destruct (identb (c :: ds) && (List.length (c :: ds) <=? 63)%nat) eqn:I.
  - apply andb_true_iff in I. destruct I as [I1 I2]. apply Nat.leb_le in I2. injection H as <-.
    apply word_ident; auto using identb_ok, identm_ok.
  - clear I. assert (N : forall b ds' v, numb b ds' = Some v -> word literal16 (prefix b ++ ds') (TNumber v)).
    { intros b ds' v K. destruct (numb_ok _ _ _ K) as [A B]. apply (word_numeral _ _ v); [exists b, ds'; auto|split; auto]. }
    destruct (Ascii.eqb_spec c "$"%char) as [-> |_].
    { destruct (numb Hex ds) as [v|] eqn:E; [|discriminate]. injection H as <-. apply (N Hex). exact E. }
    destruct (Ascii.eqb_spec c "%"%char) as [-> |_].
    { destruct (numb Bin ds) as [v|] eqn:E; [|discriminate]. injection H as <-. apply (N Bin). exact E. }
    destruct (Ascii.eqb_spec c "."%char) as [-> |_].
    { destruct (dirb ("."%char :: ds)) as [d|] eqn:E; [|discriminate]. injection H as <-. apply word_directive, dirb_ok. exact E. }
    destruct (numb Dec (c :: ds)) as [v|] eqn:E; [|discriminate]. injection H as <-. apply (N Dec). exact E.
Qed.

Definition stopb (c : ascii) : bool := delimb c || Ascii.eqb c ":"%char.
Fixpoint span (s : text) : text * text :=
  match s with
  | [] => ([], [])
  | c :: s' => if stopb c then ([], s) else let '(w, r) := span s' in (c :: w, r)
  end.

Lemma span_ok : forall s w r, span s = (w, r) -> s = w ++ r /\ match r with [] => True | c :: _ => stopb c = true end.
Proof.
  induction s as [|c s IH]; intros w r H; cbn [span] in H.
  - injection H as <- <-. auto.
  - destruct (stopb c) eqn:E; [injection H as <- <-; auto|]. destruct (span s) as [w' r'] eqn:Es. injection H as <- <-.
    destruct (IH w' r' eq_refl) as [-> K]. auto.
Qed.

Fixpoint lexb (fuel : nat) (first : bool) (off : nat) (s : text) : option (list (tok * nat)) :=
  match fuel with
  | O => None
  | S k =>
    match s with
    | [] => Some []
    | c :: s' =>
      if endb c then Some []
      else if blankb c then lexb k first (S off) s'
      else match punctb c with
           | Some t => option_map (cons (t, off)) (lexb k false (S off) s')
           | None =>
             let '(w, r) := span s in
             match wordb w, r with
             | Some t, x :: r' =>
                 if Ascii.eqb x ":"%char then
                   match t, first with
                   | TLabel n, true => option_map (cons (t, off)) (lexb k false (off + List.length w + 1) r')
                   | _, _ => None
                   end
                 else option_map (cons (t, off)) (lexb k false (off + List.length w) r)
             | Some t, [] => option_map (cons (t, off)) (lexb k false (off + List.length w) r)
             | None, _ => None
             end
           end
    end
  end.

Lemma lexb_ok : forall fuel first off s l, lexb fuel first off s = Some l -> Lexes literal16 first off s l.
Proof.
  induction fuel as [|k IH]; intros first off s l H; [discriminate|]. cbn [lexb] in H.
  destruct s as [|c s]; [injection H as <-; constructor; exact I|].
  destruct (endb c) eqn:E; [injection H as <-; constructor; apply endb_ok; exact E|].
  destruct (blankb c) eqn:B; [apply Lexes_blank; auto using blankb_ok|].
  destruct (punctb c) as [t|] eqn:P.
  { destruct (lexb k false (S off) s) as [l'|] eqn:L; [|discriminate]. injection H as <-. apply Lexes_punct; auto using punctb_ok. }
  destruct (span (c :: s)) as [w r] eqn:Sp. apply span_ok in Sp. destruct Sp as [-> St].
  destruct (wordb w) as [t|] eqn:W; [|discriminate]. apply wordb_ok in W.
  destruct r as [|x r].
  - destruct (lexb k false (off + List.length w) []) as [l'|] eqn:L; [|discriminate]. injection H as <-. apply Lexes_word; [exact W|exact I|auto].
  - destruct (Ascii.eqb_spec x ":"%char) as [-> |N].
    + destruct t; try discriminate. destruct first; [|discriminate].
      destruct (lexb k false (off + List.length w + 1) r) as [l'|] eqn:L; [|discriminate]. injection H as <-. apply Lexes_label; auto.
    + destruct (lexb k false (off + List.length w) (x :: r)) as [l'|] eqn:L; [|discriminate]. injection H as <-. apply Lexes_word; auto.
      unfold stopb in St. apply orb_true_iff in St. destruct St as [St|St]; [apply delimb_ok; exact St|].
      apply Ascii.eqb_eq in St. congruence.
Qed.

(** statements *)
Definition exprb (t : tok) : option expr := match t with TNumber v => Some (Num v) | TLabel n => Some (Lab n) | _ => None end.
Lemma exprb_ok : forall t e, exprb t = Some e -> Expr t e.
Proof. intros [] e H; try discriminate; injection H as <-; constructor. Qed.

Definition operandb (l : list tok) : option operand :=
  match l with
  | [] => Some ONone
  | [TA] => Some OAcc
  | [THash; t] => option_map OImm (exprb t)
  | [t] => option_map ODir (exprb t)
  | [TOpen; t; TClose] => option_map OInd (exprb t)
  | [t; TComma; TX] => option_map ODirX (exprb t)
  | [t; TComma; TY] => option_map ODirY (exprb t)
  | [TOpen; t; TComma; TX; TClose] => option_map OIndX (exprb t)
  | [TOpen; t; TClose; TComma; TY] => option_map OIndY (exprb t)
  | _ => None
  end.

Lemma operandb_ok : forall l o, operandb l = Some o -> Operand l o.
Proof.
  intros l o H. unfold operandb in H.
  repeat match type of H with
  | match ?x with _ => _ end = _ => destruct x; try discriminate
  end;
  try (injection H as <-; constructor; fail);
  (match type of H with option_map _ (exprb ?t) = _ => destruct (exprb t) as [e|] eqn:E; [|discriminate] end;
   injection H as <-; apply exprb_ok in E; constructor; exact E).
Qed.

Definition lineb (l : list tok) : option stmt :=
  match l with
  | [] => Some SEmpty
  | TMnemonic m :: l' => option_map (SInstr None m) (operandb l')
  | TLabel n :: TMnemonic m :: l' => option_map (SInstr (Some n) m) (operandb l')
  | [TLabel n] => Some (SLabel n)
  | [TLabel n; TEqual; TNumber v] => Some (SConst n v)
  | [TLabel n; TDirective DEqu; TNumber v] => Some (SConst n v)
  | [TDirective DDefine; TLabel n; TNumber v] => Some (SConst n v)
  | [TDirective DOrg; TNumber v] => Some (SOrg v)
  | [TStar; TEqual; TNumber v] => Some (SOrg v)
  | [TDirective DEnd] => Some SEnd
  | _ => None
  end.

Lemma lineb_ok : forall l s, lineb l = Some s -> Line l s.
Proof.
  intros l s H. unfold lineb in H.
  repeat match type of H with
  | match ?x with _ => _ end = _ => destruct x; try discriminate
  end;
  try (injection H as <-; constructor; fail);
  (match type of H with option_map _ (operandb ?t) = _ => destruct (operandb t) as [o|] eqn:E; [|discriminate] end;
   injection H as <-; apply operandb_ok in E; constructor; exact E).
Qed.

Definition tokens (line : text) : option (list (tok * nat)) := lexb (S (List.length line)) true 0 line.
Lemma tokens_ok : forall line toks, tokens line = Some toks -> Lexes literal16 true 0 line toks.
Proof. intros line toks H. eapply lexb_ok. exact H. Qed.

Definition statement (line : text) : option stmt :=
  match tokens line with Some toks => lineb (map fst toks) | None => None end.
Lemma statement_ok : forall line s, statement line = Some s -> line_means line s.
Proof.
  intros line s H. unfold statement in H. destruct (tokens line) as [toks|] eqn:E; [|discriminate].
  exists toks. split; [apply tokens_ok; exact E|apply lineb_ok; exact H].
Qed.

Fixpoint statements (lines : list text) : option (list stmt) :=
  match lines with
  | [] => Some []
  | l :: lines' => match statement l, statements lines' with Some s, Some p => Some (s :: p) | _, _ => None end
  end.
Lemma statements_ok : forall lines p, statements lines = Some p -> Forall2 line_means lines p.
Proof.
  induction lines as [|l lines IH]; intros p H; cbn [statements] in H; [injection H as <-; constructor|].
  destruct (statement l) as [s|] eqn:E; [|discriminate]. destruct (statements lines) as [q|]; [|discriminate].
  injection H as <-. constructor; auto using statement_ok.
Qed.

Definition fitsb (line : text) : bool :=
  (List.length line <=? 126)%nat && negb (existsb (Ascii.eqb ch_nl) line).
Lemma fitsb_ok : forall lines, forallb fitsb lines = true -> Forall fits lines.
Proof.
  intros lines H. apply Forall_forall. intros l Hl. rewrite forallb_forall in H. specialize (H _ Hl).
  unfold fitsb in H. apply andb_true_iff in H. destruct H as [A B]. split; [apply Nat.leb_le; exact A|].
  intro K. apply negb_true_iff in B. assert (existsb (Ascii.eqb ch_nl) l = true) as E; [|congruence].
  apply existsb_exists. exists ch_nl. split; [exact K|apply Ascii.eqb_refl].
Qed.

Theorem program_check : forall lines p, forallb fitsb lines = true -> statements lines = Some p ->
  source_of lines (join lines) /\ Forall2 line_means lines p /\ program_means (join lines) p.
Proof.
  intros lines p H1 H2. assert (S : source_of lines (join lines)) by (split; [apply fitsb_ok; exact H1|left; reflexivity]).
  pose proof (statements_ok _ _ H2) as F. split; [exact S|]. split; [exact F|]. exists lines. auto.
Qed.

(** a program used in several examples *)
Definition demo : list text :=
  [T ".ORG 512"; T "COUNT = 5"; T "START: LDX #COUNT"; T "LOOP"; T " DEX ; once more"; T " BNE LOOP";
   T " JSR SUB"; T " BEQ DONE"; T " JMP START"; T "SUB: STA $10,X"; T " STA $1234,Y"; T "DONE RTS"].
Definition demo_stmts : list stmt :=
  match statements demo with Some p => p | None => [] end.
Lemma demo_ok : statements demo = Some demo_stmts /\ forallb fitsb demo = true /\ List.length demo_stmts = 12%nat.
Proof. vm_compute. auto. Qed.

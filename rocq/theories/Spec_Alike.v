(** Spec_Alike.v -- specification side: source texts that differ in letter case, in
    comments, in blanks, in the spelling of their statements. *)
From Verif Require Import Base Model_Main Spec_Isa Spec_Text Spec_Report.

(** ** Comments: [l] and [l'] differ at most in their comment, which may be missing *)
Definition comment (s : text) : Prop := s = [] \/ exists t, s = ";"%char :: t.
Definition same_but_comment (l l' : text) : Prop :=
  exists code c c', l = code ++ c /\ l' = code ++ c' /\ comment c /\ comment c'.

(** ** Blanks *)
Definition blanks (b : text) : Prop := Forall blank b.

(** [respaced s s']: some runs of blanks of [s] are replaced by other runs in [s'].  A run
    may be empty around a bracket or a comma, behind any punctuation character and at
    the end; elsewhere a run is replaced by a run. *)
Inductive respaced : text -> text -> Prop :=
| respaced_end b b' : blanks b -> blanks b' -> respaced b b'
| respaced_same c s s' : respaced s s' -> respaced (c :: s) (c :: s')
| respaced_run b b' s s' : blanks b -> blanks b' -> b <> [] -> b' <> [] -> respaced s s' -> respaced (b ++ s) (b' ++ s')
| respaced_around b b' c e e' s s' : blanks b -> blanks b' -> blanks e -> blanks e' ->
    c = "("%char \/ c = ")"%char \/ c = ","%char -> respaced s s' ->
    respaced (b ++ c :: e ++ s) (b' ++ c :: e' ++ s')
| respaced_after c t b b' s s' : punct c t -> blanks b -> blanks b' -> respaced s s' -> respaced (c :: b ++ s) (c :: b' ++ s').

(** and leading blanks *)
Definition respaced_line (l l' : text) : Prop :=
  exists b b' s s', blanks b /\ blanks b' /\ l = b ++ s /\ l' = b' ++ s' /\ respaced s s'.

(** ** All at once: letter case, blanks, ends of lines *)
Inductive alike : text -> text -> Prop :=
| alike_end b b' s s' : blanks b -> blanks b' -> ends s -> ends s' -> alike (b ++ s) (b' ++ s')
| alike_char c c' s s' : upper c = upper c' -> alike s s' -> alike (c :: s) (c' :: s')
| alike_run b b' s s' : blanks b -> blanks b' -> b <> [] -> b' <> [] -> alike s s' -> alike (b ++ s) (b' ++ s')
| alike_around b b' c e e' s s' : blanks b -> blanks b' -> blanks e -> blanks e' ->
    c = "("%char \/ c = ")"%char \/ c = ","%char -> alike s s' ->
    alike (b ++ c :: e ++ s) (b' ++ c :: e' ++ s')
| alike_after c t b b' s s' : punct c t -> blanks b -> blanks b' -> alike s s' -> alike (c :: b ++ s) (c :: b' ++ s').

Definition alike_line (l l' : text) : Prop :=
  exists b b' s s', blanks b /\ blanks b' /\ l = b ++ s /\ l' = b' ++ s' /\ alike s s'.

(** ** Statements: an instruction on the accumulator may be written with or without A *)
Definition on_accumulator (m : string) : Prop :=
  m = "ASL"%string \/ m = "LSR"%string \/ m = "ROL"%string \/ m = "ROR"%string.
Inductive same_stmt : stmt -> stmt -> Prop :=
| same_itself s : same_stmt s s
| same_acc lab m : on_accumulator m -> same_stmt (SInstr lab m ONone) (SInstr lab m OAcc)
| same_noacc lab m : on_accumulator m -> same_stmt (SInstr lab m OAcc) (SInstr lab m ONone).

(** two lines that denote the same statement *)
Definition same_meaning (l l' : text) : Prop :=
  exists s s', line_means l s /\ line_means l' s' /\ same_stmt s s'.

(** ** What two runs have in common: the exit status, the binary and, after a success, all
    that was printed; after a failure the line number and the message of the report *)
Definition same_result (file : text) (r r' : M Outcome) : Prop :=
  match r, r' with
  | Ret o, Ret o' =>
      exit_code o = exit_code o' /\ binary o = binary o' /\
      (exit_code o = 0 -> stdout o = stdout o') /\
      (exit_code o <> 0 ->
         (stdout o = [] /\ stdout o' = []) \/
         exists n m line pos line' pos', Report file n m line pos (stdout o) /\ Report file n m line' pos' (stdout o'))
  | Undef _, Undef _ => True
  | _, _ => False
  end.

(** ** Line ends: CR LF or LF *)
Definition same_but_cr (l l' : text) : Prop := l' = l \/ l' = l ++ [ch_cr] \/ l = l' ++ [ch_cr].

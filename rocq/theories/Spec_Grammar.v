(** Spec_Grammar.v -- specification side: where a line departs from the grammar. *)
From Verif Require Import Base Spec_Isa Spec_Text.

(** some tokens that begin a line of the grammar *)
Definition viable (ts : list tok) : Prop := exists more s, Line (ts ++ more) s.

(** [ts] departs from the grammar at index [i]: its first [i] tokens begin a line of the
    grammar; with the next one (or with the end of the line) they do not *)
Definition departs_at (ts : list tok) (i : nat) : Prop :=
  (i <= List.length ts)%nat /\ viable (firstn i ts) /\
  ((i < List.length ts)%nat -> ~ viable (firstn (S i) ts)) /\
  (i = List.length ts -> forall s, ~ Line ts s).

(** the one form accepted besides the grammar: tokens after an operand indexed with X
    or Y *)
Definition trailing_junk (ts : list tok) : Prop :=
  exists front m t e r junk, (front = [] \/ exists n, front = [TLabel n]) /\ Expr t e /\
    (r = TX \/ r = TY) /\ junk <> [] /\
    ts = front ++ [TMnemonic m; t; TComma; r] ++ junk.

(** the message *)
Definition syntax_message (ts : list tok) : string :=
  match ts with TStar :: _ => "illegal base" | _ => "illegal syntax" end.

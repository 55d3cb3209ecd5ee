(** Spec_Oom.v -- specification side: what is left of a run in which the memory runs out. *)
From Verif Require Import Base Model_Main Spec_Isa Spec_Text Spec_Asm Spec_Diag Spec_Grammar Spec_Report Spec_Left Spec_Total.

(** the pieces [l], the first of which has number [n], are all taken as statements without an error; none of them ends
    the program; they lead from the state [st] to [st'] *)
Inductive takes : Z -> dstate -> list text -> dstate -> Prop :=
| takes_none n st : takes n st [] st
| takes_one n st line rest toks u st1 st2 : scanned line toks -> Understood (map fst toks) u -> u <> Statement SEnd ->
    do_understood n st u = inl st1 -> takes (n + 1) st1 rest st2 -> takes n st (line :: rest) st2.

(** a line with a label that has no value yet *)
Definition new_label (e : env) (toks : list (tok * nat)) : Prop :=
  exists name pos, In (TLabel name, pos) toks /\ lookup e name = None.

(** the run [r] breaks off in piece [n] of [l]: it fails, prints nothing, and the file holds the code of the pieces in
    front of it *)
Definition breaks_off (l : list text) (n : Z) (st : dstate) (r : M Outcome) : Prop :=
  takes 1 (mkD 0 [] []) (firstn (Z.to_nat (n - 1)) l) st /\
  exists o, r = Ret o /\ exit_code o = 1 /\ stdout o = [] /\ is_image (first_writes 0 (d_done st)) (binary o).

(** a statement that leads from [d] to [d1] asks for memory when it gives a value to a label, or when its operand has to
    be completed later *)
Definition open_operands (d : dstate) : nat :=
  List.length (filter is_open (d_done d)).
Definition asks_memory (d d1 : dstate) : Prop :=
  (List.length (d_env d) < List.length (d_env d1))%nat \/ (open_operands d < open_operands d1)%nat.

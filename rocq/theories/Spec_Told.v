(** Spec_Told.v -- specification side: the error a run reports. *)
From Verif Require Import Base Spec_Text Spec_Asm Spec_Diag Spec_Total.

(** the reading of the pieces [l] ended in [st] and [h]; the error is [message] in line number [n], whose text is [line], at the
    offset [pos]: an error found on reading the line, or an open operand that cannot be completed at the end *)
Inductive blamed (l : list text) : dstate -> halt -> Z -> string -> text -> option nat -> Prop :=
| blamed_reading st n message pos line : nth_error l (Z.to_nat (n - 1)) = Some line ->
    blamed l st (Rejected n message pos) n message line pos
| blamed_at_end st n message line toks : complete AsBuilt (d_env st) (d_done st) = inr (n, message) ->
    nth_error l (Z.to_nat (n - 1)) = Some line -> scanned line toks ->
    blamed l st AtEnd n message line (place_in toks AtOperand).

(** a program of [src] that is read to its end with the instructions and labels of [st] and assembled *)
Definition assembles (src : text) (st : dstate) : Prop :=
  exists l code, pieces src l /\ reads_on 1 (mkD 0 [] []) l st AtEnd /\ complete AsBuilt (d_env st) (d_done st) = inl code.

(** the error of the source text [src] *)
Definition faulty (src : text) (n : Z) (message : string) (line : text) (pos : option nat) : Prop :=
  exists l st h, pieces src l /\ reads_on 1 (mkD 0 [] []) l st h /\ blamed l st h n message line pos.

(** Spec_Data.v -- specification side: a way to write data in a language without a directive for it.  The byte [d] at address
    [a] is written as the operand of LDA #d at address [a - 1]; the instruction's own byte is overwritten by what is written
    afterwards at [a - 1]: the last byte comes first, and the code in front of the data at the end. *)
From Verif Require Import Base Spec_Isa Spec_Text Spec_Listing Spec_Write.

Fixpoint data_at (a : Z) (ds : list Z) : list stmt :=
  match ds with
  | [] => []
  | d :: ds' => data_at (a + 1) ds' ++ [SOrg (a - 1); SInstr None "LDA" (OImm (Num d))]
  end.

(** the source of [code], whose lines are [lines], followed by [data] *)
Definition with_data (code : list Z) (lines : list text) (data : list Z) : text :=
  join (map write (data_at (Z.of_nat (List.length code)) data ++ [SOrg 0]) ++ lines).

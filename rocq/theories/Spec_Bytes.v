(** Spec_Bytes.v -- specification side: where each byte of the binary comes from. *)
From Verif Require Import Base Spec_Isa Spec_Text Spec_Asm Spec_Prog.

(** the byte of the instruction of index [k] at address [x], [code] being the code of the program *)
Definition byte_of (p : list stmt) (code : list (Z * list Z)) (k : nat) (x b : Z) : Prop :=
  exists a bs, nth_error code (instr_number p k) = Some (a, bs) /\ nth_error bs (Z.to_nat (x - a)) = Some b.

(** a forward reference lies at [x] *)
Definition patched (p : list stmt) (x : Z) : Prop := exists k, forward AsBuilt p k /\ spans AsBuilt p k x.

(** [Final_byte p code x b]: after the run, [b] is at address [x]: the byte of the last forward reference there; if there
    is none, the byte of the last instruction there, unless later zero bytes lie there; a zero otherwise *)
Inductive Final_byte (p : list stmt) (code : list (Z * list Z)) (x : Z) : Z -> Prop :=
| final_forward : forall k b, forward AsBuilt p k -> spans AsBuilt p k x ->
    (forall j, (k < j)%nat -> forward AsBuilt p j -> ~ spans AsBuilt p j x) ->
    byte_of p code k x b -> Final_byte p code x b
| final_code : forall k b, ~ patched p x -> spans AsBuilt p k x ->
    (forall j, (k < j)%nat -> ~ spans AsBuilt p j x /\ ~ zero_span AsBuilt p j x) ->
    byte_of p code k x b -> Final_byte p code x b
| final_zeros : forall k, ~ patched p x -> zero_span AsBuilt p k x ->
    (forall j, (k < j)%nat -> ~ spans AsBuilt p j x /\ ~ zero_span AsBuilt p j x) ->
    Final_byte p code x 0
| final_gap : (forall j, ~ spans AsBuilt p j x /\ ~ zero_span AsBuilt p j x) -> Final_byte p code x 0.

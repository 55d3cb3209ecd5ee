(** Check_Examples.v -- generated by tools/examples.py: the programs of /repo/example.  The expected
    bytes come from a small assembler in tools/examples.py that is independent of the model and of
    the code.  For each program: it meets the hypotheses of the theorems about whole programs
    (C26, C27, ...), the reference semantics of Spec_Asm gives the expected bytes, the program is
    assembled to an image of them with exit status 0 (by C26), and running the model on the shorter
    ones gives the same.  Tests, not proofs of properties. *)
From Verif Require Import Base Model_Main Spec_Text Spec_Asm Spec_Prog Proof_Check Proof_Prog Prop_Program Check_Base.

(** the text of a file whose last line may lack a newline *)
Definition file_text (ends : bool) (lines : list text) : text :=
  if ends then join lines else join (removelast lines) ++ last lines [].

(** the hypotheses of the theorems, decided *)
Fixpoint monotoneb (st : pass1_state) (p : list stmt) : bool :=
  match p with
  | [] => true
  | SEnd :: _ => true
  | s :: p' =>
    match s with SOrg v => p1_addr st <=? v | _ => true end &&
    match pass1_stmt AsBuilt st s with Some st' => monotoneb st' p' | None => true end
  end.
Lemma monotoneb_ok : forall p st, monotoneb st p = true -> monotone_from AsBuilt st p.
Proof.
  induction p as [|s p IH]; intros st H; cbn [monotoneb monotone_from] in *; [exact I|].
  destruct s; try exact I; apply andb_true_iff in H; destruct H as [H1 H2]; (split; [|]);
    try exact I; try (apply Z.leb_le; exact H1);
    (destruct (pass1_stmt AsBuilt st _); [apply IH; exact H2|exact I]).
Qed.
Definition piece_eqb (a b : Z * list Z) : bool := (fst a =? fst b) && list_z_eqb (snd a) (snd b).
Fixpoint code_eqb (a b : list (Z * list Z)) : bool :=
  match a, b with [], [] => true | x :: a', y :: b' => piece_eqb x y && code_eqb a' b' | _, _ => false end.
Lemma list_z_eqb_ok : forall a b, list_z_eqb a b = true -> a = b.
Proof.
  induction a as [|x a IH]; intros [|y b] H; cbn [list_z_eqb] in H; try discriminate; [reflexivity|].
  apply andb_true_iff in H. destruct H as [H1 H2]. apply Z.eqb_eq in H1. subst. f_equal. auto.
Qed.
Lemma code_eqb_ok : forall a b, code_eqb a b = true -> a = b.
Proof.
  induction a as [|[x u] a IH]; intros [|[y v] b] H; cbn [code_eqb] in H; try discriminate; [reflexivity|].
  apply andb_true_iff in H. destruct H as [H1 H2]. unfold piece_eqb in H1. cbn [fst snd] in H1.
  apply andb_true_iff in H1. destruct H1 as [H0 H1]. apply Z.eqb_eq in H0. apply list_z_eqb_ok in H1.
  subst. f_equal. auto.
Qed.
Definition okb (ends : bool) (lines : list text) (code : list (Z * list Z)) : bool :=
  forallb fitsb lines && (ends || negb (text_eqb (last lines []) [])) && (0 <? Z.of_nat (List.length lines)) &&
  (Z.of_nat (List.length (file_text ends lines)) <? 1000000) &&
  match statements lines with
  | Some p => monotoneb (mkP1 0 [] []) p &&
              match reference AsBuilt p with Some c => code_eqb code c | None => false end
  | None => false
  end.

Lemma okb_means : forall ends lines code, okb ends lines code = true ->
  exists p, program_means (file_text ends lines) p /\ monotone AsBuilt p /\ reference AsBuilt p = Some code /\
    Z.of_nat (List.length (file_text ends lines)) < 1000000.
Proof.
  intros ends lines code H. unfold okb in H. repeat (apply andb_true_iff in H; destruct H as [H ?K]).
  destruct (statements lines) as [p|] eqn:E; [|discriminate]. exists p.
  apply andb_true_iff in K. destruct K as [K3 K4]. destruct (reference AsBuilt p) as [c|] eqn:ER; [|discriminate].
  apply code_eqb_ok in K4. subst c. split; [|split; [apply monotoneb_ok; exact K3|split; [reflexivity|apply Z.ltb_lt; exact K0]]].
  exists lines. split; [|apply statements_ok; exact E]. split; [apply fitsb_ok; exact H|].
  unfold file_text. destruct ends; [left; reflexivity|right]. exists (removelast lines), (last lines []).
  assert (N : lines <> []) by (intro X; subst; discriminate).
  split; [apply app_removelast_last; exact N|]. split; [|reflexivity].
  cbn [orb] in K2. intro X. rewrite X in K2. discriminate.
Qed.

Theorem assembled_as_expected : forall file ends lines code, okb ends lines code = true ->
  exists o, gaia file (file_text ends lines) = Ret o /\ exit_code o = 0 /\ is_image code (binary o).
Proof.
  intros file ends lines code H. destruct (okb_means _ _ _ H) as (p & A & B & C & D).
  destruct (C26_as_built file _ _ A ltac:(unfold small in *; lia)) as (o & G & X & I).
  exists o. split; [exact G|]. split; [apply X; eauto|]. apply I; assumption.
Qed.

(** running the model: exit status, bytes and report *)
Definition image_of (code : list (Z * list Z)) : list Z :=
  map (fun a => match byte_at code (Z.of_nat a) with Some b => b | None => 0 end)
      (seq 0 (Z.to_nat (image_end code))).
Definition runs_to (ends : bool) (lines : list text) (code : list (Z * list Z)) (bytes symbols : Z) : bool :=
  match gaia (T "example.asm") (file_text ends lines) with
  | Ret o => (exit_code o =? 0) && list_z_eqb (binary o) (image_of code) && text_eqb (stdout o) (summary bytes symbols)
  | _ => false
  end.

(** example/address_line_test.asm *)
Definition address_line_test : list text :=
  [
    C "          .ORG $E000\r";
    C "\r";
    C ";WRTDATA: Fill fifteen memory locations with unique, incremental\r";
    C ";values, where each address uses a unique address line.\r";
    C "WRTDATA   LDX #$0F\r";
    C "          STX $4000     ;$4000 = #$0F  (for test of A14)\r";
    C "          DEX\r";
    C "          STX $2000     ;$2000 = #$0E  (for test of A13)\r";
    C "          DEX\r";
    C "          STX $1000     ;$1000 = #$0D  (for test of A12)\r";
    C "          DEX\r";
    C "          STX $0800     ;$0800 = #$0C  (for test of A11)\r";
    C "          DEX\r";
    C "          STX $0400     ;$0400 = #$0B  (for test of A10)\r";
    C "          DEX\r";
    C "          STX $0200     ;$0200 = #$0A  (for test of A9)\r";
    C "          DEX\r";
    C "          STX $0100     ;$0100 = #$09  (for test of A8)\r";
    C "          DEX\r";
    C "          STX $0080     ;$0080 = #$08  (for test of A7)\r";
    C "          DEX\r";
    C "          STX $0040     ;$0040 = #$07  (for test of A6)\r";
    C "          DEX\r";
    C "          STX $0020     ;$0020 = #$06  (for test of A5)\r";
    C "          DEX\r";
    C "          STX $0010     ;$0010 = #$05  (for test of A4)\r";
    C "          DEX\r";
    C "          STX $0008     ;$0008 = #$04  (for test of A3)\r";
    C "          DEX\r";
    C "          STX $0004     ;$0004 = #$03  (for test of A2)\r";
    C "          DEX\r";
    C "          STX $0002     ;$0002 = #$02  (for test of A1)\r";
    C "          DEX\r";
    C "          STX $0001     ;$0001 = #$01  (for test of A0)\r";
    C "\r";
    C ";RAMTEST1  Check address lines A0-A7.\r";
    C ";Routine is broken into RAMTEST1 and RAMTEST2 due to the limited range\r";
    C ";of the relative branch instruction BNE.\r";
    C "RAMTEST1  CPX $0001\r";
    C "          BNE FOUNDBAD  ;A0 bad (not = #$01)?\r";
    C "          INX\r";
    C "          CPX $0002\r";
    C "          BNE FOUNDBAD  ;A1 bad (not = #$02)?\r";
    C "          INX\r";
    C "          CPX $0004\r";
    C "          BNE FOUNDBAD  ;A2 bad (not = #$03)?\r";
    C "          INX\r";
    C "          CPX $0008\r";
    C "          BNE FOUNDBAD  ;A3 bad (not = #$04)?\r";
    C "          INX\r";
    C "          CPX $0010\r";
    C "          BNE FOUNDBAD  ;A4 bad (not = #$05)?\r";
    C "          INX\r";
    C "          CPX $0020\r";
    C "          BNE FOUNDBAD  ;A5 bad (not = #$06)?\r";
    C "          INX\r";
    C "          CPX $0040\r";
    C "          BNE FOUNDBAD  ;A6 bad (not = #$07)?\r";
    C "          INX\r";
    C "          CPX $0080     ;A7 bad (not = #$08)?\r";
    C "          BNE FOUNDBAD\r";
    C "          JMP RAMTEST2\r";
    C "\r";
    C ";FOUNDBAD  Called by either RAMTEST1 or RAMTEST2 if\r";
    C ";an error was detected.  This is the jump to the error handler.\r";
    C "FOUNDBAD  JMP FAILURE\r";
    C "\r";
    C ";RAMTEST2  Tests address lines A8-A14\r";
    C "RAMTEST2  INX\r";
    C "          CPX $0100\r";
    C "          BNE FOUNDBAD  ;A8 bad (not = #$09)?\r";
    C "          INX\r";
    C "          CPX $0200\r";
    C "          BNE FOUNDBAD  ;A9 bad (not = #$0A)?\r";
    C "          INX\r";
    C "          CPX $0400\r";
    C "          BNE FOUNDBAD  ;A10 bad (not = #$0B)?\r";
    C "          INX\r";
    C "          CPX $0800\r";
    C "          BNE FOUNDBAD  ;A11 bad (not = #$0C)?\r";
    C "          INX\r";
    C "          CPX $1000\r";
    C "          BNE FOUNDBAD  ;A12 bad (not = #$0D)?\r";
    C "          INX\r";
    C "          CPX $2000\r";
    C "          BNE FOUNDBAD  ;A13 bad (not = #$0E)?\r";
    C "          INX\r";
    C "          CPX $4000\r";
    C "          BNE FOUNDBAD  ;A14 bad (not = #$0E)?\r";
    C "\r";
    C ";SUCCESS  Program completed with no errors detected.\r";
    C ";\r";
    C "SUCCESS   LDX #$00      ;Optional: Clean up the test bytes by filling\r";
    C "          STX $01       ;with #$00.\r";
    C "          STX $02\r";
    C "          STX $04\r";
    C "          STX $08\r";
    C "          STX $10\r";
    C "          STX $20\r";
    C "          STX $40\r";
    C "          STX $80\r";
    C "          STX $0100\r";
    C "          STX $0200\r";
    C "          STX $0400\r";
    C "          STX $0800\r";
    C "          STX $1000\r";
    C "          STX $2000\r";
    C "          STX $4000\r";
    C "          RTS\r";
    C "\r";
    C "FAILURE   DEX           ;An error was detected.\r";
    C ";\t   .\r";
    C ";\t   .            The address line under test (Axx) at the\r";
    C ";\t   .            time of failure is in the X register." ].
Definition address_line_test_code : list (Z * list Z) :=
  [ (57344, [162; 15]);
    (57346, [142; 0; 64]);
    (57349, [202]);
    (57350, [142; 0; 32]);
    (57353, [202]);
    (57354, [142; 0; 16]);
    (57357, [202]);
    (57358, [142; 0; 8]);
    (57361, [202]);
    (57362, [142; 0; 4]);
    (57365, [202]);
    (57366, [142; 0; 2]);
    (57369, [202]);
    (57370, [142; 0; 1]);
    (57373, [202]);
    (57374, [134; 128]);
    (57376, [202]);
    (57377, [134; 64]);
    (57379, [202]);
    (57380, [134; 32]);
    (57382, [202]);
    (57383, [134; 16]);
    (57385, [202]);
    (57386, [134; 8]);
    (57388, [202]);
    (57389, [134; 4]);
    (57391, [202]);
    (57392, [134; 2]);
    (57394, [202]);
    (57395, [134; 1]);
    (57397, [228; 1]);
    (57399, [208; 38]);
    (57401, [232]);
    (57402, [228; 2]);
    (57404, [208; 33]);
    (57406, [232]);
    (57407, [228; 4]);
    (57409, [208; 28]);
    (57411, [232]);
    (57412, [228; 8]);
    (57414, [208; 23]);
    (57416, [232]);
    (57417, [228; 16]);
    (57419, [208; 18]);
    (57421, [232]);
    (57422, [228; 32]);
    (57424, [208; 13]);
    (57426, [232]);
    (57427, [228; 64]);
    (57429, [208; 8]);
    (57431, [232]);
    (57432, [228; 128]);
    (57434, [208; 3]);
    (57436, [76; 98; 224]);
    (57439, [76; 180; 224]);
    (57442, [232]);
    (57443, [236; 0; 1]);
    (57446, [208; 247]);
    (57448, [232]);
    (57449, [236; 0; 2]);
    (57452, [208; 241]);
    (57454, [232]);
    (57455, [236; 0; 4]);
    (57458, [208; 235]);
    (57460, [232]);
    (57461, [236; 0; 8]);
    (57464, [208; 229]);
    (57466, [232]);
    (57467, [236; 0; 16]);
    (57470, [208; 223]);
    (57472, [232]);
    (57473, [236; 0; 32]);
    (57476, [208; 217]);
    (57478, [232]);
    (57479, [236; 0; 64]);
    (57482, [208; 211]);
    (57484, [162; 0]);
    (57486, [134; 1]);
    (57488, [134; 2]);
    (57490, [134; 4]);
    (57492, [134; 8]);
    (57494, [134; 16]);
    (57496, [134; 32]);
    (57498, [134; 64]);
    (57500, [134; 128]);
    (57502, [142; 0; 1]);
    (57505, [142; 0; 2]);
    (57508, [142; 0; 4]);
    (57511, [142; 0; 8]);
    (57514, [142; 0; 16]);
    (57517, [142; 0; 32]);
    (57520, [142; 0; 64]);
    (57523, [96]);
    (57524, [202]) ].
Example address_line_test_assembled : forall file, exists o, gaia file (file_text false address_line_test) = Ret o /\ exit_code o = 0 /\
  is_image address_line_test_code (binary o).
Proof. intro file. apply assembled_as_expected. vm_compute. reflexivity. Qed.

(** example/bubble16.asm *)
Definition bubble16 : list text :=
  [
    C ";THIS SUBROUTINE ARRANGES THE 16-BIT ELEMENTS OF A LIST IN\r";
    C ";ASCENDING ORDER.  THE STARTING ADDRESS OF THE LIST IS IN LOCATIONS\r";
    C ";$30 AND $31.  THE LENGTH OF THE LIST IS IN THE FIRST BYTE OF THE LIST.\r";
    C ";LOCATION $32 IS USED TO HOLD AN EXCHANGE FLAG.\r";
    C "\r";
    C "SORT16\tLDY #$00\t;TURN EXCHANGE FLAG OFF (= 0)\r";
    C "\tSTY $32\r";
    C "\tLDA ($30),Y\t;FETCH ELEMENT COUNT\r";
    C "\tTAY\t\t;  AND USE IT TO INDEX LAST ELEMENT\r";
    C "NXTEL\tLDA ($30),Y\t;FETCH MSBY\r";
    C "\tPHA\t\t;  AND PUSH IT ONTO STACK\r";
    C "\tDEY\r";
    C "\tLDA ($30),Y\t;FETCH LSBY\r";
    C "\tSEC\r";
    C "\tDEY\r";
    C "\tDEY\r";
    C "\tSBC ($30),Y\t; AND SUBTRACT LSBY OF PRECEDING ELEMENT\r";
    C "\tPLA\r";
    C "\tINY\r";
    C "\tSBC ($30),Y\t; AND SUBTRACT MSBY OF PRECEDING ELEMENT\r";
    C "\tBCC SWAP\t;ARE THESE ELEMENTS OUT OF ORDER?\r";
    C "\tCPY #$02\t;NO. LOOP UNTIL ALL ELEMENTS COMPARED\r";
    C "\tBNE NXTEL\r";
    C "\tBIT $32\t\t;EXCHANGE FLAG STILL OFF?\r";
    C "\tBMI SORT16\t;NO. GO THROUGH LIST AGAIN\r";
    C "\tRTS\r";
    C "\r";
    C ";THIS ROUTINE BELOW EXCHANGES TWO 16-BIT ELEMENTS IN MEMORY\r";
    C "\r";
    C "SWAP\tLDA ($30),Y\t;SAVE MSBY1 ON STACK\r";
    C "\tPHA\r";
    C "\tDEY\r";
    C "\tLDA ($30),Y\t;SAVE LSBY1 ON STACK\r";
    C "\tPHA\r";
    C "\tINY\r";
    C "\tINY\r";
    C "\tINY\r";
    C "\tLDA ($30),Y\t;SAVE MSBY2 ON STACK\r";
    C "\tPHA\r";
    C "\tDEY\r";
    C "\tLDA ($30),Y\t;LOAD LSBY2 INTO ACCUMULATOR\r";
    C "\tDEY\r";
    C "\tDEY\r";
    C "\tSTA ($30),Y\t; AND STORE IT AT LSBY1 POSITION\r";
    C "\tLDX #$03\r";
    C "SLOOP\tINY\t\t;STORE THE OTHER THREE BYTES\r";
    C "\tPLA\r";
    C "\tSTA ($30),Y\r";
    C "\tDEX\r";
    C "\tBNE SLOOP\t;LOOP UNTIL THREE BYTE STORED\r";
    C "\tLDA #$FF\t;TURN EXCHANGE FLAG ON (= -1)\r";
    C "\tSTA $32\r";
    C "\tCPY #04\t\t;WAS EXCHANGE DONE AT START OF LIST?\r";
    C "\tBEQ SORT16\t;YES. GO THROUGH LIST AGAIN.\r";
    C "\tDEY\t\t;NO. COMPARE NEXT ELEMENT PAIR\r";
    C "\tDEY\r";
    C "\tJMP NXTEL" ].
Definition bubble16_code : list (Z * list Z) :=
  [ (0, [160; 0]);
    (2, [132; 50]);
    (4, [177; 48]);
    (6, [168]);
    (7, [177; 48]);
    (9, [72]);
    (10, [136]);
    (11, [177; 48]);
    (13, [56]);
    (14, [136]);
    (15, [136]);
    (16, [241; 48]);
    (18, [104]);
    (19, [200]);
    (20, [241; 48]);
    (22, [144; 9]);
    (24, [192; 2]);
    (26, [208; 235]);
    (28, [36; 50]);
    (30, [48; 224]);
    (32, [96]);
    (33, [177; 48]);
    (35, [72]);
    (36, [136]);
    (37, [177; 48]);
    (39, [72]);
    (40, [200]);
    (41, [200]);
    (42, [200]);
    (43, [177; 48]);
    (45, [72]);
    (46, [136]);
    (47, [177; 48]);
    (49, [136]);
    (50, [136]);
    (51, [145; 48]);
    (53, [162; 3]);
    (55, [200]);
    (56, [104]);
    (57, [145; 48]);
    (59, [202]);
    (60, [208; 249]);
    (62, [169; 255]);
    (64, [133; 50]);
    (66, [192; 4]);
    (68, [240; 186]);
    (70, [136]);
    (71, [136]);
    (72, [76; 7; 0]) ].
Example bubble16_assembled : forall file, exists o, gaia file (file_text false bubble16) = Ret o /\ exit_code o = 0 /\
  is_image bubble16_code (binary o).
Proof. intro file. apply assembled_as_expected. vm_compute. reflexivity. Qed.
Example bubble16_runs : runs_to false bubble16 bubble16_code 75 4 = true.
Proof. vm_compute. reflexivity. Qed.

(** example/bubble8.asm *)
Definition bubble8 : list text :=
  [
    C ";THIS SUBROUTINE ARRANGES THE 8-BIT ELEMENTS OF A LIST IN ASCENDING\r";
    C ";ORDER.  THE STARTING ADDRESS OF THE LIST IS IN LOCATIONS $30 AND\r";
    C ";$31.  THE LENGTH OF THE LIST IS IN THE FIRST BYTE OF THE LIST.  LOCATION\r";
    C ";$32 IS USED TO HOLD AN EXCHANGE FLAG.\r";
    C "\r";
    C "SORT8\tLDY #$00\t;TURN EXCHANGE FLAG OFF (= 0)\r";
    C "\tSTY $32\r";
    C "\tLDA ($30),Y\t;FETCH ELEMENT COUNT\r";
    C "\tTAX\t\t; AND PUT IT INTO X\r";
    C "\tINY\t\t;POINT TO FIRST ELEMENT IN LIST\r";
    C "\tDEX\t\t;DECREMENT ELEMENT COUNT\r";
    C "\t;.END\r";
    C "NXTEL\tLDA ($30),Y\t;FETCH ELEMENT\r";
    C "\tINY\r";
    C "\tCMP ($30),Y\t;IS IT LARGER THAN THE NEXT ELEMENT?\r";
    C "\tBCC CHKEND\r";
    C "\tBEQ CHKEND\r";
    C "\t\t\t;YES. EXCHANGE ELEMENTS IN MEMORY\r";
    C "\tPHA\t\t; BY SAVING LOW BYTE ON STACK.\r";
    C "\tLDA ($30),Y\t; THEN GET HIGH BYTE AND\r";
    C "\tDEY\t\t; STORE IT AT LOW ADDRESS\r";
    C "\tSTA ($30),Y\r";
    C "\tPLA\t\t;PULL LOW BYTE FROM STACK\r";
    C "\tINY\t\t; AND STORE IT AT HIGH ADDRESS\r";
    C "\tSTA ($30),Y\r";
    C "\tLDA #$FF\t;TURN EXCHANGE FLAG ON (= -1)\r";
    C "\tSTA $32\r";
    C "CHKEND\tDEX\t\t;END OF LIST?\r";
    C "\tBNE NXTEL\t;NO. FETCH NEXT ELEMENT\r";
    C "\tBIT $32\t\t;YES. EXCHANGE FLAG STILL OFF?\r";
    C "\tBMI SORT8\t;NO. GO THROUGH LIST AGAIN\r";
    C "\tRTS\t\t;YES. LIST IS NOW ORDERED" ].
Definition bubble8_code : list (Z * list Z) :=
  [ (0, [160; 0]);
    (2, [132; 50]);
    (4, [177; 48]);
    (6, [170]);
    (7, [200]);
    (8, [202]);
    (9, [177; 48]);
    (11, [200]);
    (12, [209; 48]);
    (14, [144; 16]);
    (16, [240; 14]);
    (18, [72]);
    (19, [177; 48]);
    (21, [136]);
    (22, [145; 48]);
    (24, [104]);
    (25, [200]);
    (26, [145; 48]);
    (28, [169; 255]);
    (30, [133; 50]);
    (32, [202]);
    (33, [208; 230]);
    (35, [36; 50]);
    (37, [48; 217]);
    (39, [96]) ].
Example bubble8_assembled : forall file, exists o, gaia file (file_text false bubble8) = Ret o /\ exit_code o = 0 /\
  is_image bubble8_code (binary o).
Proof. intro file. apply assembled_as_expected. vm_compute. reflexivity. Qed.
Example bubble8_runs : runs_to false bubble8 bubble8_code 40 3 = true.
Proof. vm_compute. reflexivity. Qed.

(** example/exhaustive.asm *)
Definition exhaustive : list text :=
  [
    C "ADDRESS\t\t=\t$ABCD\r";
    C "CONST8\t\t=\t$7F\t; masswerk assembler only looks at 8 chars in labels\r";
    C "CONST16\t\t=\t$1111\r";
    C "\r";
    C "; in masswerk, REMOVE THE PERIODS! gaia allows them\r";
    C "DIR1\t\t.EQU\t$4000\r";
    C "DIR2\t\t.EQU\t$8000\r";
    C ";.DEFINE\t\tDIR2\t$8000\t; masswerk does not accept this directive\r";
    C "\r";
    C "\t\t;.ORG\t$1000\r";
    C "\t\t;*=$200\t\t; masswerk does not pad the binary file with zero\r";
    C "\t\t\t\t; bytes to reach the stated pc, but gaia does\r";
    C "LABEL1\r";
    C "\t\tINX\r";
    C "\t\tROL\tA\r";
    C "\t\tORA\t$AA\r";
    C "\t\tASL\tCONST8\r";
    C "\t\tLDA\t$1234\r";
    C "\t\tCPY\tLABEL1\r";
    C "\t\tSBC\t$BB,X\r";
    C "\t\tROR\tCONST8,X\r";
    C "\t\tINC\t$1000,X\r";
    C "\t\tCMP\tCONST16,X\r";
    C "\t\tSTX\t$CC,Y\r";
    C "\t\tLDX\tCONST8,Y\r";
    C "\t\tSTA\t$DEAD,Y\r";
    C "\t\tAND\tADDRESS,Y\r";
    C "\t\tJMP\t($FACE)\r";
    C "\t\tJMP\t(ADDRESS)\r";
    C "\t\tEOR\t#$DD\r";
    C "\t\tLDY\t#CONST8\r";
    C "; indirect addressing is always zero page\r";
    C "\t\tADC\t($EE,X)\r";
    C "\t\tLDA\t(CONST8,X)\r";
    C "\t\tSTA\t($FF),Y\r";
    C "\t\tSBC\t(CONST8),Y\r";
    C "\r";
    C "\t\tBMI\tLABEL1\t\t; branch\r";
    C "\t\tBVS\tL1\t\t; branch forward ref\r";
    C "\t\tJMP\tLABEL1\t\t; jump\r";
    C "\t\tJSR\tL3\t\t; jump forward ref\r";
    C "LABEL2\t\tBCC\tLABEL1\t\t; label branch\r";
    C "FORREF1\t\tBVC\tL19\t\t; label branch forward ref\r";
    C "LABEL3\t\tJSR\tLABEL2\t\t; label jump\r";
    C "FORREF2\t\tJMP\tL21\t\t; label jump forward ref\r";
    C "\t\tJMP\t(WHERE)\t\t; indirect forward ref\r";
    C "FORREF3\t\tJMP\t(WHERE)\t\t; label indirect forward ref\r";
    C "\r";
    C "L1\t\tDEY\r";
    C "L2\t\tASL\tA\r";
    C "L3\t\tSTY\t$AA\r";
    C "L4\t\tROL\tCONST8\r";
    C "L5\t\tLSR\t$1234\r";
    C "L6\t\tROR\tADDRESS\r";
    C "L7\t\tLDY\t$BB,X\r";
    C "L8\t\tDEC\tCONST8,X\r";
    C "L9\t\tINC\t$1000,X\r";
    C "L10\t\tCMP\tCONST16,X\r";
    C "L11\t\tSTX\t$CC,Y\r";
    C "L12\t\tLDX\tCONST8,Y\r";
    C "L13\t\tSTA\t$B00B,Y\r";
    C "L14\t\tAND\tADDRESS,Y\r";
    C "L15\t\tJMP\t($CAFE)\r";
    C "L16\t\tJMP\t(CONST16)\r";
    C "L17\t\tCPX\t#$DD\r";
    C "L18\t\tLDY\t#CONST8\r";
    C "L19\t\tADC\t($EE,X)\r";
    C "L20\t\tLDA\t(CONST8,X)\r";
    C "L21\t\tSTA\t($FF),Y\r";
    C "L22\t\tSBC\t(CONST8),Y\r";
    C "WHERE\r";
    C "\t\t.END" ].
Definition exhaustive_code : list (Z * list Z) :=
  [ (0, [232]);
    (1, [42]);
    (2, [5; 170]);
    (4, [6; 127]);
    (6, [173; 52; 18]);
    (9, [196; 0]);
    (11, [245; 187]);
    (13, [118; 127]);
    (15, [254; 0; 16]);
    (18, [221; 17; 17]);
    (21, [150; 204]);
    (23, [182; 127]);
    (25, [153; 173; 222]);
    (28, [57; 205; 171]);
    (31, [108; 206; 250]);
    (34, [108; 205; 171]);
    (37, [73; 221]);
    (39, [160; 127]);
    (41, [97; 238]);
    (43, [161; 127]);
    (45, [145; 255]);
    (47, [241; 127]);
    (49, [48; 205]);
    (51, [112; 22]);
    (53, [76; 0; 0]);
    (56, [32; 77; 0]);
    (59, [144; 195]);
    (61, [80; 54]);
    (63, [32; 59; 0]);
    (66, [76; 121; 0]);
    (69, [108; 125; 0]);
    (72, [108; 125; 0]);
    (75, [136]);
    (76, [10]);
    (77, [132; 170]);
    (79, [38; 127]);
    (81, [78; 52; 18]);
    (84, [110; 205; 171]);
    (87, [180; 187]);
    (89, [214; 127]);
    (91, [254; 0; 16]);
    (94, [221; 17; 17]);
    (97, [150; 204]);
    (99, [182; 127]);
    (101, [153; 11; 176]);
    (104, [57; 205; 171]);
    (107, [108; 254; 202]);
    (110, [108; 17; 17]);
    (113, [224; 221]);
    (115, [160; 127]);
    (117, [97; 238]);
    (119, [161; 127]);
    (121, [145; 255]);
    (123, [241; 127]) ].
Example exhaustive_assembled : forall file, exists o, gaia file (file_text false exhaustive) = Ret o /\ exit_code o = 0 /\
  is_image exhaustive_code (binary o).
Proof. intro file. apply assembled_as_expected. vm_compute. reflexivity. Qed.
Example exhaustive_runs : runs_to false exhaustive exhaustive_code 125 34 = true.
Proof. vm_compute. reflexivity. Qed.

(** example/patmatch.asm *)
Definition patmatch : list text :=
  [
    C "; Input:  A NUL-terminated, <255-length pattern at address PATTERN.\r";
    C ";         A NUL-terminated, <255-length string pointed to by STR.\r";
    C ";\r";
    C "; Output: Carry bit = 1 if the string matches the pattern, = 0 if not.\r";
    C ";\r";
    C "; Notes:  Clobbers A, X, Y. Each * in the pattern uses 4 bytes of stack.\r";
    C ";\r";
    C "\r";
    C "MATCH1\t\t.EQU $3F\t; Matches exactly 1 character\r";
    C "MATCHN\t\t.EQU $2A\t; Matches any string (including """")\r";
    C "PATTERN\t\t.EQU $2000\t; Address of pattern\r";
    C "STR\t\t.EQU $6\t\t; Pointer to string to match\r";
    C "\r";
    C "PATTERNMATCH:\r";
    C "\t\tLDX #$00\t; X is an index in the pattern\r";
    C "\t\tLDY #$FF\t; Y is an index in the string\r";
    C "NEXT\t\tLDA PATTERN,X\t; Look at next pattern character\r";
    C "\t\tCMP #MATCHN\t; Is it a star?\r";
    C "\t\tBEQ STAR\t; Yes, do the complicated stuff\r";
    C "\t\tINY\t\t; No, let's look at the string\r";
    C "\t\tCMP #MATCH1\t; Is the pattern caracter a ques?\r";
    C "\t\tBNE REG\t\t; No, it's a regular character\r";
    C "\t\tLDA (STR),Y\t; Yes, so it will match anything\r";
    C "\t\tBEQ FAIL\t;  except the end of string\r";
    C "REG\t\tCMP (STR),Y\t; Are both characters the same?\r";
    C "\t\tBNE FAIL\t; No, so no match\r";
    C "\t\tINX\t\t; Yes, keep checking\r";
    C "\t\tCMP #0\t\t; Are we at end of string?\r";
    C "\t\tBNE NEXT\t; Not yet, loop\r";
    C "FOUND\t\tRTS\t\t; Success, return with C=1\r";
    C "\r";
    C "STAR\t\tINX\t\t; Skip star in pattern\r";
    C "\t\tCMP PATTERN,X\t; String of stars equals one star\r";
    C "\t\tBEQ STAR\t;  so skip them also\r";
    C "STLOOP\t\tTXA\t\t; We first try to match with * = """"\r";
    C "\t\tPHA\t\t;  and grow it by 1 character every\r";
    C "\t\tTYA\t\t;  time we loop\r";
    C "\t\tPHA\t\t; Save X and Y on stack\r";
    C "\t\tJSR NEXT\t; Recursive call\r";
    C "\t\tPLA\t\t; Restore X and Y\r";
    C "\t\tTAY\r";
    C "\t\tPLA\r";
    C "\t\tTAX\r";
    C "\t\tBCS FOUND\t; We found a match, return with C=1\r";
    C "\t\tINY\t\t; No match yet, try to grow * string\r";
    C "\t\tLDA (STR),Y\t; Are we at the end of string?\r";
    C "\t\tBNE STLOOP\t; Not yet, add a character\r";
    C "FAIL\t\tCLC\t\t; Yes, no match found, return with C=0\r";
    C "\t\tRTS" ].
Definition patmatch_code : list (Z * list Z) :=
  [ (0, [162; 0]);
    (2, [160; 255]);
    (4, [189; 0; 32]);
    (7, [201; 42]);
    (9, [240; 19]);
    (11, [200]);
    (12, [201; 63]);
    (14, [208; 4]);
    (16, [177; 6]);
    (18, [240; 34]);
    (20, [209; 6]);
    (22, [208; 30]);
    (24, [232]);
    (25, [201; 0]);
    (27, [208; 231]);
    (29, [96]);
    (30, [232]);
    (31, [221; 0; 32]);
    (34, [240; 250]);
    (36, [138]);
    (37, [72]);
    (38, [152]);
    (39, [72]);
    (40, [32; 4; 0]);
    (43, [104]);
    (44, [168]);
    (45, [104]);
    (46, [170]);
    (47, [176; 236]);
    (49, [200]);
    (50, [177; 6]);
    (52, [208; 238]);
    (54, [24]);
    (55, [96]) ].
Example patmatch_assembled : forall file, exists o, gaia file (file_text false patmatch) = Ret o /\ exit_code o = 0 /\
  is_image patmatch_code (binary o).
Proof. intro file. apply assembled_as_expected. vm_compute. reflexivity. Qed.
Example patmatch_runs : runs_to false patmatch patmatch_code 56 11 = true.
Proof. vm_compute. reflexivity. Qed.

(** example/strcmp.asm *)
Definition strcmp : list text :=
  [
    C "STREQU:\t\tLDY #$00\t;Compare strings, case-sensitive\r";
    C "\t\tLDA ($FA),Y\t;Naturally, the zero flag is used to return if the strings are equal\r";
    C "\t\tCMP ($FC),Y\r";
    C "\t\tBEQ STREQU1\r";
    C "\t\tRTS\r";
    C "STREQU1:\tTAY\r";
    C "STREQULP:\tLDA ($FC),Y\r";
    C "\t\tAND #$7F\r";
    C "\t\tSTA $FF\r";
    C "\t\tLDA ($FA),Y\r";
    C "\t\tAND #$7F\r";
    C "\t\tCMP $FF\r";
    C "\t\tBNE STREQUEX\r";
    C "\t\tDEY\r";
    C "\t\tBNE STREQULP\r";
    C "STREQUEX:\tRTS\r";
    C "\r";
    C ";Comparing Strings (Case-Insensitive):\r";
    C "\r";
    C "STREQI:\t\tLDY #$00\t;Compare strings, case-insensitive\r";
    C "\t\tLDA ($FA),Y\t;Naturally, the zero flag is used to return if the strings are equal\r";
    C "\t\tCMP ($FC),Y\r";
    C "\t\tBEQ STREQI1\r";
    C "\t\tRTS\r";
    C "STREQI1:\tTAY\r";
    C "STREQILP:\tLDA ($FC),Y\r";
    C "\t\tAND #$7F\r";
    C "\t\tCMP #$7B\r";
    C "\t\tBCS STREQI2\r";
    C "\t\tCMP #$61\r";
    C "\t\tBCC STREQI2\r";
    C "\t\tSBC #$20\r";
    C "STREQI2:\tSTA $FF\r";
    C "\t\tLDA ($FA),Y\r";
    C "\t\tAND #$7F\r";
    C "\t\tCMP #$7B\r";
    C "\t\tBCS STREQI3\r";
    C "\t\tCMP #$61\r";
    C "\t\tBCC STREQI3\r";
    C "\t\tSBC #$20\r";
    C "STREQI3:\tCMP $FF\r";
    C "\t\tBNE STREQIEX\r";
    C "\t\tDEY\r";
    C "\t\tBNE STREQILP\r";
    C "STREQIEX:\tRTS\r" ].
Definition strcmp_code : list (Z * list Z) :=
  [ (0, [160; 0]);
    (2, [177; 250]);
    (4, [209; 252]);
    (6, [240; 1]);
    (8, [96]);
    (9, [168]);
    (10, [177; 252]);
    (12, [41; 127]);
    (14, [133; 255]);
    (16, [177; 250]);
    (18, [41; 127]);
    (20, [197; 255]);
    (22, [208; 3]);
    (24, [136]);
    (25, [208; 239]);
    (27, [96]);
    (28, [160; 0]);
    (30, [177; 250]);
    (32, [209; 252]);
    (34, [240; 1]);
    (36, [96]);
    (37, [168]);
    (38, [177; 252]);
    (40, [41; 127]);
    (42, [201; 123]);
    (44, [176; 6]);
    (46, [201; 97]);
    (48, [144; 2]);
    (50, [233; 32]);
    (52, [133; 255]);
    (54, [177; 250]);
    (56, [41; 127]);
    (58, [201; 123]);
    (60, [176; 6]);
    (62, [201; 97]);
    (64, [144; 2]);
    (66, [233; 32]);
    (68, [197; 255]);
    (70, [208; 3]);
    (72, [136]);
    (73, [208; 219]);
    (75, [96]) ].
Example strcmp_assembled : forall file, exists o, gaia file (file_text true strcmp) = Ret o /\ exit_code o = 0 /\
  is_image strcmp_code (binary o).
Proof. intro file. apply assembled_as_expected. vm_compute. reflexivity. Qed.
Example strcmp_runs : runs_to true strcmp strcmp_code 76 10 = true.
Proof. vm_compute. reflexivity. Qed.

(** example/tolower.asm *)
Definition tolower : list text :=
  [
    C "; TOLOWER:\r";
    C ";\r";
    C ";   Convert a null-terminated character string to all lower case.\r";
    C ";   Maximum string length is 255 characters, plus the null term-\r";
    C ";   inator.\r";
    C ";\r";
    C "; Parameters:\r";
    C ";\r";
    C ";   SRC – Source string address\r";
    C ";   DST – Destination string address\r";
    C ";\r";
    C "SRC     = $0080     ;source string pointer\r";
    C "DST     = $0082     ;destination string pointer\r";
    C ";\r";
    C "        .ORG $0600       ;execution start address\r";
    C ";\r";
    C "TOLOWER LDY #$00        ;starting index\r";
    C ";\r";
    C "LOOP    LDA (SRC),Y     ;get from source string\r";
    C "        BEQ DONE        ;end of string\r";
    C ";\r";
    C "        CMP #65         ;if lower than UC alphabet...\r";
    C "        BCC SKIP        ;copy unchanged\r";
    C ";\r";
    C "        CMP #91         ;if greater than UC alphabet... (91='Z'+1)\r";
    C "        BCS SKIP        ;copy unchanged\r";
    C ";\r";
    C "        ORA #%00100000  ;convert to lower case\r";
    C ";\r";
    C "SKIP    STA (DST),Y     ;store to destination string\r";
    C "        INY             ;bump index\r";
    C "        BNE LOOP        ;next character\r";
    C ";\r";
    C "; NOTE: If Y wraps the destination string will be left in an undefined\r";
    C ";  state. We set carry to indicate this to the calling function.\r";
    C ";\r";
    C "        SEC             ;report string too long error &...\r";
    C "        RTS             ;return to caller\r";
    C ";\r";
    C "DONE    STA (DST),Y     ;terminate destination string\r";
    C "        CLC             ;report conversion completed &...\r";
    C "        RTS             ;return to caller\r";
    C ";\r";
    C "        .END" ].
Definition tolower_code : list (Z * list Z) :=
  [ (1536, [160; 0]);
    (1538, [177; 128]);
    (1540, [240; 17]);
    (1542, [201; 65]);
    (1544, [144; 6]);
    (1546, [201; 91]);
    (1548, [176; 2]);
    (1550, [9; 32]);
    (1552, [145; 130]);
    (1554, [200]);
    (1555, [208; 237]);
    (1557, [56]);
    (1558, [96]);
    (1559, [145; 130]);
    (1561, [24]);
    (1562, [96]) ].
Example tolower_assembled : forall file, exists o, gaia file (file_text false tolower) = Ret o /\ exit_code o = 0 /\
  is_image tolower_code (binary o).
Proof. intro file. apply assembled_as_expected. vm_compute. reflexivity. Qed.
Example tolower_runs : runs_to false tolower tolower_code 27 6 = true.
Proof. vm_compute. reflexivity. Qed.


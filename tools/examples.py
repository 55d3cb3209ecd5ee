"""theories/Check_Examples.v: the programs of /repo/example.  The expected bytes come from the small
assembler below, written from the 6502 data sheet and not from the model or the code."""
import re,sys
OUT=sys.argv[1] if len(sys.argv)>1 else '/verif/rocq/theories/Check_Examples.v'
FILES=['address_line_test','bubble16','bubble8','exhaustive','patmatch','strcmp','tolower']
OPS={}
def fam(names,base,modes):
    for i,n in enumerate(names.split()):
        for m,o in modes.items(): OPS[n,m]=base+i*0x20+o
fam('ORA AND EOR ADC STA LDA CMP SBC',0x01,dict(izx=0,zp=4,imm=8,abs=0xC,izy=0x10,zpx=0x14,aby=0x18,abx=0x1C)); del OPS['STA','imm']
fam('ASL ROL LSR ROR',0x02,dict(zp=4,acc=8,abs=0xC,zpx=0x14,abx=0x1C))
fam('DEC INC',0xC2,dict(zp=4,abs=0xC,zpx=0x14,abx=0x1C))
for (n,m,o) in [('STX','zp',0x86),('STX','abs',0x8E),('STX','zpy',0x96),('LDX','imm',0xA2),('LDX','zp',0xA6),('LDX','abs',0xAE),('LDX','zpy',0xB6),('LDX','aby',0xBE),
 ('STY','zp',0x84),('STY','abs',0x8C),('STY','zpx',0x94),('LDY','imm',0xA0),('LDY','zp',0xA4),('LDY','abs',0xAC),('LDY','zpx',0xB4),('LDY','abx',0xBC),
 ('CPY','imm',0xC0),('CPY','zp',0xC4),('CPY','abs',0xCC),('CPX','imm',0xE0),('CPX','zp',0xE4),('CPX','abs',0xEC),('BIT','zp',0x24),('BIT','abs',0x2C),
 ('JMP','abs',0x4C),('JMP','ind',0x6C),('JSR','abs',0x20)]: OPS[n,m]=o
for i,n in enumerate('BPL BMI BVC BVS BCC BCS BNE BEQ'.split()): OPS[n,'rel']=0x10+0x20*i
for n,o in dict(BRK=0,PHP=8,CLC=0x18,PLP=0x28,SEC=0x38,RTI=0x40,PHA=0x48,CLI=0x58,RTS=0x60,PLA=0x68,SEI=0x78,DEY=0x88,TXA=0x8A,TYA=0x98,TXS=0x9A,TAY=0xA8,TAX=0xAA,CLV=0xB8,TSX=0xBA,INY=0xC8,DEX=0xCA,CLD=0xD8,INX=0xE8,NOP=0xEA,SED=0xF8).items(): OPS[n,'imp']=o
MN={n for n,_ in OPS}
def number(s):
    if s[0]=='$': return int(s[1:],16)
    if s[0]=='%': return int(s[1:],2)
    return int(s)
def assemble(lines):
    env={};pc=0;code=[]
    for raw in lines:
        s=raw.split(';')[0].split()
        if not s: continue
        lab=None
        if s[0] not in MN and not s[0].startswith(('.','*')):
            lab=s[0].rstrip(':'); s=s[1:]
            if s and (s[0]=='=' or s[0].upper() in('.EQU','.DEFINE')):
                env[lab]=number(s[1]); continue
            env[lab]=pc
        if not s: continue
        if s[0].upper()=='.END': break
        if s[0].upper()=='.ORG': pc=number(s[1]); continue
        m=s[0]; o=''.join(s[1:])
        def shape():
            for pat,md in [(r'\((.+),X\)','izx'),(r'\((.+)\),Y','izy'),(r'\((.+)\)','ind'),(r'#(.+)','imm'),(r'(.+),X','X'),(r'(.+),Y','Y'),(r'(.+)','')]:
                q=re.fullmatch(pat,o)
                if q: return md,q.group(1)
        if o=='': md,e=('imp' if (m,'imp') in OPS else 'acc'),None
        elif o=='A': md,e='acc',None
        elif (m,'rel') in OPS: md,e='rel',o
        else:
            md,e=shape()
            if md in('','X','Y'):
                v=env.get(e) if re.match(r'[A-Z]',e) else number(e)
                z='zp'+md.lower(); w={'':'abs','X':'abx','Y':'aby'}[md]
                md=z if v is not None and v<256 and (m,z) in OPS else w
        n=0 if e is None else 2 if md in('abs','abx','aby','ind') else 1
        code.append((pc,OPS[m,md],md,e,n)); pc+=1+n
    out=[]
    for a,op,md,e,n in code:
        if n==0: out.append((a,[op])); continue
        v=env[e] if re.match(r'[A-Z_]',e) else number(e)
        if md=='rel': v=v-(a+2); assert -128<=v<128; v%=256
        out.append((a,[op]+[v%256]+([v//256] if n==2 else [])))
    return out,len(env)
o=r'''(** Check_Examples.v -- generated by tools/examples.py: the programs of /repo/example.  The expected
    bytes come from a small assembler in tools/examples.py that is independent of the model and of
    the code.  For each program: it meets the hypotheses of the theorems about whole programs
    (C26, C27, ...), the reference semantics of Spec_Asm gives the expected bytes, the program is
    assembled to an image of them with exit status 0 (by C26), and running the model on the shorter
    ones gives the same.  Tests, not proofs of properties. *)
From Verif Require Import Base Model_Main Spec_Text Spec_Asm Spec_Prog Proof_Check Proof_Prog Prop_Program Check_Base.

(** the text of a file whose last line may lack a newline *)
Definition file_text (ends : bool) (lines : list text) : text :=
  if ends then join lines else join (removelast lines) ++ last lines [].

(** the hypotheses of the theorems, decided *)
Fixpoint monotoneb (st : pass1_state) (p : list stmt) : bool :=
  match p with
  | [] => true
  | SEnd :: _ => true
  | s :: p' =>
    match s with SOrg v => p1_addr st <=? v | _ => true end &&
    match pass1_stmt AsBuilt st s with Some st' => monotoneb st' p' | None => true end
  end.
Lemma monotoneb_ok : forall p st, monotoneb st p = true -> monotone_from AsBuilt st p.
Proof.
  induction p as [|s p IH]; intros st H; cbn [monotoneb monotone_from] in *; [exact I|].
  destruct s; try exact I; apply andb_true_iff in H; destruct H as [H1 H2]; (split; [|]);
    try exact I; try (apply Z.leb_le; exact H1);
    (destruct (pass1_stmt AsBuilt st _); [apply IH; exact H2|exact I]).
Qed.
Definition piece_eqb (a b : Z * list Z) : bool := (fst a =? fst b) && list_z_eqb (snd a) (snd b).
Fixpoint code_eqb (a b : list (Z * list Z)) : bool :=
  match a, b with [], [] => true | x :: a', y :: b' => piece_eqb x y && code_eqb a' b' | _, _ => false end.
Lemma list_z_eqb_ok : forall a b, list_z_eqb a b = true -> a = b.
Proof.
  induction a as [|x a IH]; intros [|y b] H; cbn [list_z_eqb] in H; try discriminate; [reflexivity|].
  apply andb_true_iff in H. destruct H as [H1 H2]. apply Z.eqb_eq in H1. subst. f_equal. auto.
Qed.
Lemma code_eqb_ok : forall a b, code_eqb a b = true -> a = b.
Proof.
  induction a as [|[x u] a IH]; intros [|[y v] b] H; cbn [code_eqb] in H; try discriminate; [reflexivity|].
  apply andb_true_iff in H. destruct H as [H1 H2]. unfold piece_eqb in H1. cbn [fst snd] in H1.
  apply andb_true_iff in H1. destruct H1 as [H0 H1]. apply Z.eqb_eq in H0. apply list_z_eqb_ok in H1.
  subst. f_equal. auto.
Qed.
Definition okb (ends : bool) (lines : list text) (code : list (Z * list Z)) : bool :=
  forallb fitsb lines && (ends || negb (text_eqb (last lines []) [])) && (0 <? Z.of_nat (List.length lines)) &&
  (Z.of_nat (List.length (file_text ends lines)) <? 1000000) &&
  match statements lines with
  | Some p => monotoneb (mkP1 0 [] []) p &&
              match reference AsBuilt p with Some c => code_eqb code c | None => false end
  | None => false
  end.

Lemma okb_means : forall ends lines code, okb ends lines code = true ->
  exists p, program_means (file_text ends lines) p /\ monotone AsBuilt p /\ reference AsBuilt p = Some code /\
    Z.of_nat (List.length (file_text ends lines)) < 1000000.
Proof.
  intros ends lines code H. unfold okb in H. repeat (apply andb_true_iff in H; destruct H as [H ?K]).
  destruct (statements lines) as [p|] eqn:E; [|discriminate]. exists p.
  apply andb_true_iff in K. destruct K as [K3 K4]. destruct (reference AsBuilt p) as [c|] eqn:ER; [|discriminate].
  apply code_eqb_ok in K4. subst c. split; [|split; [apply monotoneb_ok; exact K3|split; [reflexivity|apply Z.ltb_lt; exact K0]]].
  exists lines. split; [|apply statements_ok; exact E]. split; [apply fitsb_ok; exact H|].
  unfold file_text. destruct ends; [left; reflexivity|right]. exists (removelast lines), (last lines []).
  assert (N : lines <> []) by (intro X; subst; discriminate).
  split; [apply app_removelast_last; exact N|]. split; [|reflexivity].
  cbn [orb] in K2. intro X. rewrite X in K2. discriminate.
Qed.

Theorem assembled_as_expected : forall file ends lines code, okb ends lines code = true ->
  exists o, gaia file (file_text ends lines) = Ret o /\ exit_code o = 0 /\ is_image code (binary o).
Proof.
  intros file ends lines code H. destruct (okb_means _ _ _ H) as (p & A & B & C & D).
  destruct (C26_as_built file _ _ A ltac:(unfold small in *; lia)) as (o & G & X & I).
  exists o. split; [exact G|]. split; [apply X; eauto|]. apply I; assumption.
Qed.

(** running the model: exit status, bytes and report *)
Definition image_of (code : list (Z * list Z)) : list Z :=
  map (fun a => match byte_at code (Z.of_nat a) with Some b => b | None => 0 end)
      (seq 0 (Z.to_nat (image_end code))).
Definition runs_to (ends : bool) (lines : list text) (code : list (Z * list Z)) (bytes symbols : Z) : bool :=
  match gaia (T "example.asm") (file_text ends lines) with
  | Ret o => (exit_code o =? 0) && list_z_eqb (binary o) (image_of code) && text_eqb (stdout o) (summary bytes symbols)
  | _ => false
  end.

'''
tot=0
for f in FILES:
    t=open('/repo/example/%s.asm'%f,'rb').read().decode('latin-1')
    lines=t.split('\n')
    if lines[-1]=='': lines.pop(); end=True
    else: end=False
    code,n=assemble([l.rstrip('\r') for l in lines]); tot+=len(lines)
    def lit(l): return b'    C "%s"'%l.replace('\\','\\\\').replace('\t','\\t').replace('\r','\\r').replace('"','""').encode('latin-1')
    print(f,len(lines),len(code),n,end)
    body=b';\n'.join(lit(l) for l in lines).decode('latin-1')
    o+='(** example/%s.asm *)\nDefinition %s : list text :=\n  [\n%s ].\n'%(f,f,body)
    o+='Definition %s_code : list (Z * list Z) :=\n  [ %s ].\n'%(f,';\n    '.join('(%d, [%s])'%(a,'; '.join(map(str,b))) for a,b in code))
    e='true' if end else 'false'
    o+='Example %s_assembled : forall file, exists o, gaia file (file_text %s %s) = Ret o /\\ exit_code o = 0 /\\\n  is_image %s_code (binary o).\nProof. intro file. apply assembled_as_expected. vm_compute. reflexivity. Qed.\n'%(f,e,f,f)
    if f!='address_line_test':
        o+='Example %s_runs : runs_to %s %s %s_code %d %d = true.\nProof. vm_compute. reflexivity. Qed.\n'%(f,e,f,f,sum(len(b) for a,b in code),n)
    o+='\n'
open(OUT,'wb').write(o.encode('latin-1'))

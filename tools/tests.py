"""Translate the unit tests of /repo/tests into Coq: theories/Check_*.v.

Each test function becomes a Coq computation over the model that returns the list of the
source lines whose assertions fail; an Example says that this list is empty.  C variables
are Coq variables (shadowed on assignment).  What has no counterpart in the model
(assertions that a pointer is not NULL, calls that free memory, enum values out of range,
the int returned by token_strcpy) is skipped and counted."""
import re, sys
REPO='/repo/tests/'
FILES=['prime/test_prime.c','opcode/test_opcode.c','symbol_table/test_symbol_table.c','lexer/test_lexer.c',
 'parser/test_parser1.c','parser/test_parser2.c','forward_reference/test_forward_reference.c',
 'generator/test_generator.c','error/test_error.c','assemble/test_assemble.c']
def strip_comments(s):
    out='';i=0
    while i<len(s):
        if s[i]=='"':
            j=i+1
            while s[j]!='"': j+=2 if s[j]=='\\' else 1
            out+=s[i:j+1]; i=j+1
        elif s.startswith('/*',i):
            j=s.index('*/',i)+2; out+='\n'*s[i:j].count('\n'); i=j
        elif s.startswith('//',i):
            i=s.find('\n',i)
        else: out+=s[i]; i+=1
    return out
def split_args(s):
    a=[];d=0;cur='';i=0
    while i<len(s):
        c=s[i]
        if c=='"':
            j=i+1
            while s[j]!='"': j+=2 if s[j]=='\\' else 1
            cur+=s[i:j+1]; i=j+1; continue
        if c in '([': d+=1
        if c in ')]': d-=1
        if c==',' and d==0: a.append(cur.strip()); cur=''
        else: cur+=c
        i+=1
    if cur.strip(): a.append(cur.strip())
    return a
def mask(s):
    """the characters inside string literals replaced by _"""
    return re.sub(r'"(?:\\.|[^"\\])*"',lambda m:'_'*len(m.group(0)),s)
def call(s):
    """f(args) -> (f,[args]) or None"""
    m=re.match(r'^(\w+)\s*\(',s)
    if not m or not s.endswith(')'): return None
    d=0; q=mask(s)
    for i in range(m.end()-1,len(s)):
        if q[i]=='(': d+=1
        if q[i]==')':
            d-=1
            if d==0 and i!=len(s)-1: return None
    return m.group(1),split_args(s[m.end():-1])
def unparen(s):
    s=s.strip()
    while s.startswith('(') and s.endswith(')'):
        d=0
        for i,c in enumerate(mask(s)):
            if c=='(': d+=1
            if c==')': d-=1
            if d==0: break
        if i!=len(s)-1: break
        s=s[1:-1].strip()
    return s
class Skip(Exception): pass
class Tr:
    def __init__(self,name,macros,strings):
        self.name=name;self.macros=macros;self.strs=dict(strings);self.out=[];self.n=0;self.skipped=0;self.arrays={};self.bound={}
    # --- C strings: (text as in the source, offset)
    def cstr(self,e):
        e=unparen(e)
        if e.startswith('"'): return (e[1:-1],0)
        if e in self.strs: return self.strs[e]
        raise KeyError('string '+e)
    def text(self,e):
        """Coq term of the text a char* expression points to"""
        e=unparen(e)
        if e.startswith('"') or e in self.strs:
            s,o=self.cstr(e)
            t='(C "%s")'%s.replace('\\0','').replace('"','""')
            return '(skipn %d %s)'%(o,t) if o else t
        return self.get(e,'text')
    def off(self,e):
        e=unparen(e)
        if e.startswith('"'): return 0
        return self.cstr(e)[1]
    def ev(self,line): self.out.append('  '+line)
    def get(self,e,want=None):
        """pure Coq term for an expression; emits binds for partial reads"""
        e=unparen(e)
        e=re.sub(r'(?<!\w)\(lexer\)','lexer',e)
        if re.fullmatch(r'-?\d+U?',e): return '(%s)'%e.rstrip('U')
        if re.fullmatch(r'0x[0-9A-Fa-f]+U?',e): return '%d'%int(e.rstrip('U'),16)
        if re.fullmatch(r'0b[01]+',e): return '%d'%int(e[2:],2)
        if call(e) and call(e)[0]!='strlen': return self.do(*call(e))
        if '&' in e and not e.startswith('&'):
            t=[x.strip() for x in e.split('&')]
            r=None
            for x in t:
                v='(Z.lnot %s)'%self.get(x[1:]) if x.startswith('~') else self.get(x)
                r=v if r is None else '(Z.land %s %s)'%(r,v)
            return r
        m=re.fullmatch(r'(\d+) \* (\d+)',e)
        if m: return '(%s * %s)'%m.groups()
        m=re.fullmatch(r'lexer->sequence\[(.+)\]->(\w+)',e)
        if m:
            i=self.get(m.group(1)); self.ev('t <- get (lx_seq lexer) %s ;;'%i)
            return self.tokfield('t',m.group(2))
        m=re.fullmatch(r'(tk|prev|curr)->(\w+)',e)
        if m: return self.tokfield(m.group(1),m.group(2))
        m=re.fullmatch(r'operand->(\w+)',e)
        if m:
            self.ev('i <- some operand ;;'); self.ev('t <- get (lx_seq lexer) i ;;')
            return self.tokfield('t',m.group(1))
        m=re.fullmatch(r'(ref->)?instr->(\w+)',e)
        if m:
            x='(fr_instr ref)' if m.group(1) else 'instr'
            return '(%s %s)'%({'mnemonic':'i_mnemonic','addr_bitfield':'i_bitfield','addr_bitflag':'i_bitflag','opcode':'i_opcode'}[m.group(2)],x)
        m=re.fullmatch(r'(ref|unresolved->refs\[(\w+)\])->(label|source_line|pc|line_num|operand_status|operand_location)',e)
        if m:
            if m.group(2): self.refat(m.group(2)); x='r'
            else: x='ref'
            return '(fr_%s %s)'%(m.group(3),x)
        m=re.fullmatch(r'lexer->(curr|line|error_tk|file_name)',e)
        if m: return '(lx_%s lexer)'%m.group(1).replace('file_name','file')
        m=re.fullmatch(r'unresolved->(curr|size)',e)
        if m: return '(un_%s unresolved)'%m.group(1)
        m=re.fullmatch(r'symtab->(size|count)',e)
        if m: return '(tab_%s symtab)'%m.group(1)
        m=re.fullmatch(r'symtab->symbols\[(\w+)\]->label',e)
        if m:
            self.ev('o <- get (tab_symbols symtab) %s ;;'%m.group(1)); self.ev('y <- some o ;;'); return '(sym_label y)'
        m=re.fullmatch(r'strlen\((.*)\)',e)
        if m: return '(Z.of_nat (List.length %s))'%self.get(m.group(1))
        m=re.fullmatch(r'lexer->curr-1',e)
        if m: return '(lx_curr lexer - 1)'
        if re.fullmatch(r'\w+',e): return e
        c=call(e)
        if c: return self.do(*c)
        raise KeyError('expr '+e)
    def refat(self,i):
        self.ev('o <- get (un_refs unresolved) %s ;;'%self.get(i)); self.ev('r <- some o ;;')
    def tokfield(self,x,f):
        return '(%s %s)'%({'type':'tk_type','str':'tk_str','value':'tk_value','error_char':'tk_error_char','buffer_location':'tk_loc'}[f],x)
    def num(self,e):
        """an int argument, with ++"""
        e=unparen(e)
        if e.endswith('++'):
            v=e[:-2]; self.post=v; return v
        return self.get(e)
    def do(self,f,a):
        """emit a call; return the Coq term of its result"""
        self.post=None
        r='res'
        if f in('lex_literal',):
            self.ev("let '(res, tk) := lex_literal %d %s tk in"%(self.off(a[0]),self.text(a[0])))
        elif f=='lex_instruction': self.ev("let '(res, tk, instr) := lex_instruction tk instr in")
        elif f=='lex_directive': self.ev("'(res, tk) <- lex_directive %d %s tk ;;"%(self.off(a[0]),self.text(a[0])))
        elif f in('lex_text','lex'): self.ev("'(res, tk, instr) <- %s %d %s tk instr ;;"%(f,self.off(a[0]),self.text(a[0])))
        elif f=='lex_line':
            n=self.num(a[4]); self.ev("'(res, lexer, tk, instr, _) <- lex_line %s lexer tk instr %s ;;"%(self.text(a[0]),n))
        elif f=='token_strcpy':
            if a[1]=='NULL': raise Skip()
            self.ev('tk <- token_strcpy tk %s ;;'%self.text(a[1])); r=None
        elif f=='token_strncpy': self.ev('tk <- token_strncpy tk %s %s ;;'%(self.text(a[1]),a[2])); r=None
        elif f=='add_token': self.ev("'(res, lexer, _) <- add_token lexer tk ;;")
        elif f in('parse_instr_tree','parse_label_tree','parse_directive_tree','parse_base_tree'):
            self.ev("'(res, lexer, _) <- %s lexer %s ;;"%(f,self.get(a[1])))
        elif f=='parse_line': self.ev("'(res, lexer, _) <- parse_line lexer ;;")
        elif f=='parse_label_declaration': self.ev("'(res, lexer, symtab, _) <- parse_label_declaration true true lexer symtab %s ;;"%self.get(a[2]))
        elif f=='find_operand':
            if unparen(a[0])=='NULL': raise Skip()
            self.ev('res <- find_operand lexer ;;')
        elif f in('parse_operand','parse_label_operand'):
            o=self.operand(a[2])
            if f=='parse_label_operand': self.ev('i <- some %s ;;'%o); o='i'
            self.ev("'(res, lexer, _) <- %s lexer instr %s symtab ;;"%(f,o))
        elif f=='apply_masks': self.ev('res <- apply_masks lexer %s ;;'%self.get(a[1]))
        elif f=='parse_forward_ref_addr_mode': self.ev("'(res, instr, _) <- parse_forward_ref_addr_mode lexer instr ;;")
        elif f=='parse_addr_mode':
            o=self.operand(a[2]); self.ev("'(res, instr, _) <- parse_addr_mode lexer instr %s %s ;;"%(o,self.get(a[3])))
        elif f=='generate_code':
            self.ev('ot <- token_of lexer operand ;;')
            self.ev("let '(res, f, instr) := generate_code f instr ot %s in"%self.get(a[3]))
        elif f=='resolve_label_ref':
            self.ev("'(res, f, lexer, instr, _) <- resolve_label_ref f lexer instr operand operand_status symtab %s ;;"%self.get(a[6]))
        elif f=='resolve_forward_ref':
            m=re.fullmatch(r'unresolved->refs\[(\w+)\]',unparen(a[1]))
            x='ref'
            if m: self.refat(m.group(1)); x='r'
            self.ev("'(res, f, _) <- resolve_forward_ref f %s lexer %s ;;"%(x,self.get(a[3])))
        elif f=='create_forward_ref':
            self.ev('i <- some operand ;;'); self.ev('t <- get (lx_seq lexer) i ;;')
            self.ev('o <- create_forward_ref true %s instr t operand_status pc line_num ;;'%self.text(a[0]))
            self.ev('res <- some o ;;')
        elif f=='add_forward_ref': self.ev("'(res, unresolved) <- add_forward_ref true unresolved ref ;;")
        elif f=='insert_symbol': self.ev("'(res, symtab) <- insert_symbol true true symtab %s %s ;;"%(self.text(a[1]),self.get(a[2])))
        elif f=='search_symbol':
            t=self.text(a[1]); self.ev('res <- search_symbol symtab %s ;;'%t)
        elif f=='next_prime': self.ev('res <- next_prime %s ;;'%self.get(a[0]))
        elif f=='str_to_mnemonic':
            if a[0]=='NULL': raise Skip()
            r='(str_to_mnemonic %s)'%self.text(a[0])
        elif f=='get_addr_bitfield':
            if not a[0].isalpha(): raise Skip()
            r='(get_addr_bitfield %s)'%a[0]
        elif f=='get_opcode': r='(get_opcode instr)'
        elif f.startswith('assemble_'): r='(%s %s)'%(f,self.get(a[0]))
        elif f=='reset_instruction': self.ev('let instr := reset_instruction instr in'); r=None
        elif f=='reset_token': self.ev('let tk := reset_token tk in'); r=None
        elif f=='fputc': self.ev('let f := fputc %s f in'%self.get(a[0])); r=None
        elif f=='fread': r='(Z.min %s (Z.of_nat (List.length (from_here f))))'%self.get(a[2])
        elif f=='print_error':
            line='None' if a[0]=='NULL' else '(Some %s)'%self.text(a[0])
            m=re.match(r'&\((\w+)\[(\d+)\]\)',a[2])
            bad='None' if a[2]=='NULL' else '(Some %s%%nat)'%m.group(2)
            self.ev('_ <- print_error %s %s %s %s %s ;;'%(line,a[1],bad,self.get(a[3]),self.get(a[4]))); r=None
        else: raise KeyError('call '+f)
        if self.post: self.ev('let %s := %s + 1 in'%(self.post,self.post)); self.post=None
        return r
    def operand(self,e):
        e=unparen(e)
        if call(e): return self.do(*call(e))
        return e
    def check(self,line,b):
        self.n+=1; self.ev('let bad := chk %d (%s) bad in'%(line,b))
    def ptr(self,e):
        """Coq term of type option: offset, index or text, depending on the other side"""
        e=unparen(e)
        if e=='NULL': return 'None'
        m=re.fullmatch(r'&?\(?(?:ref->source_line|\w+)\[(\d+)\]\)?',e)
        if m and e.startswith('&'): return '(Some %s%%nat)'%m.group(1)
        m=re.fullmatch(r'lexer->sequence\[(\d+)\]',e)
        if m: return '(Some %s)'%m.group(1)
        return None
    def stmt(self,s,line):
        s=s.strip()
        if not s: return
        try: self.stmt1(s,line)
        except Skip: self.skipped+=1
    def stmt1(self,s,line):
        s=re.sub(r'\s+',' ',s) if '"' not in s else s
        c=call(s)
        if c and c[0] in self.macros:
            params,body=self.macros[c[0]]
            env=dict(zip(params,c[1]))
            body=re.sub(r'\b(%s)\b'%'|'.join(params),lambda m:env[m.group(1)],body) if params else body
            self.block(body,line,fixed=True); return
        if c and c[0] in('TEST_ASSERT_NOT_NULL','TEST_ASSERT_NULL','destroy_lexer','destroy_token','destroy_instruction','destroy_symbol_table','destroy_unresolved','destroy_forward_ref','fclose','free','malloc'):
            if c[0].startswith('TEST'):
                m=re.fullmatch(r'symtab->symbols\[(\w+)\]',c[1][0])
                if m:
                    self.ev('o <- get (tab_symbols symtab) %s ;;'%m.group(1))
                    self.check(line,'%sis_some o%s'%(('','') if 'NOT' in c[0] else ('negb (',')')))
                else: self.skipped+=1
            return
        if c and c[0]=='fseek':
            self.ev('let f := mkOFile (of_data f) %s in'%self.get(c[1][1])); return
        if c and c[0]=='TEST_ASSERT_EQUAL_INT':
            e,a=c[1]
            e=unparen(e); a=unparen(a)
            if call(e) or e=='operand_status': e,a=a,e
            if a=='buffer[3]': raise Skip()
            if a.startswith('token_strcpy'): self.get(a); raise Skip()
            v=self.get(a); 
            if re.search(r'type\b',a): self.check(line,'ty_eqb %s %s'%(v,e))
            elif re.search(r'mnemonic\b',a): self.check(line,'mn_eqb %s %s'%(v,e))
            else: self.check(line,'%s =? %s'%(v,self.get(e)))
            return
        if c and c[0]=='TEST_ASSERT_EQUAL_STRING':
            t=self.text(c[1][0]); v=self.get(c[1][1]); self.check(line,'text_eqb %s %s'%(v,t)); return
        if c and c[0]=='TEST_ASSERT_EQUAL_PTR':
            e,a=unparen(c[1][0]),unparen(c[1][1])
            cc=call(a)
            if cc:
                v=self.do(*cc); self.check(line,'opt_z_eqb %s %s'%(v,self.ptr(e))); return
            v=self.get(a)
            if a.endswith('->line'):
                self.check(line,'opt_text_eqb %s %s'%(v,'(Some %s)'%self.text(e))); return
            p=self.ptr(e)
            if a.endswith('error_tk'): self.check(line,'opt_z_eqb %s %s'%(v,p)); return
            if p is None: p='(Some %d%%nat)'%self.off(e)
            if 'operand_location' in a: v='(Some %s)'%v
            self.check(line,'opt_n_eqb %s %s'%(v,p)); return
        if c and c[0]=='TEST_ASSERT_EQUAL_INT8_ARRAY':
            self.check(line,'list_z_eqb (firstn (Z.to_nat %s) (from_here f)) (firstn (Z.to_nat %s) [%s])'%(c[1][2],c[1][2],'; '.join(str(int(x,16)) for x in self.arrays[c[1][0]]))); return
        m=re.fullmatch(r'(?:const )?char \*(\w+)',s)
        if m: return
        m=re.fullmatch(r'(?:const )?(?:char \*)?(\w+)\s*=\s*(".*"|\w+)',s,re.S)
        if m and (m.group(2).startswith('"') or m.group(2) in self.strs):
            self.strs[m.group(1)]=self.cstr(m.group(2)); return
        m=re.fullmatch(r'(\w+) = (\w+) \+ (\d+)',s)
        if m and m.group(2) in self.strs:
            b=self.strs[m.group(2)]; self.strs[m.group(1)]=(b[0],b[1]+int(m.group(3))); return
        m=re.fullmatch(r'strncpy\((\w+), "(.*)", \d+\)',s)
        if m: self.strs[m.group(1)]=(m.group(2),0); return
        m=re.fullmatch(r'(\w+)\[(\d+)\] = EOF',s)
        if m: self.strs[m.group(1)]=(self.strs[m.group(1)][0][:int(m.group(2))]+'\\xff',0); return
        if re.match(r'char \*\w+ = malloc',s): return
        m=re.fullmatch(r'unsigned char (\w+)\[\] = \{(.*)\}',s,re.S)
        if m: self.arrays[m.group(1)]=[x.strip() for x in m.group(2).split(',')]; return
        if re.match(r'unsigned char produced',s): return
        m=re.fullmatch(r'FILE \*f = .*',s)
        if m: self.ev('let f := mkOFile [] 0 in'); return
        m=re.fullmatch(r'struct \w+ \*(\w+)',s)
        if m: return
        m=re.fullmatch(r'(?:struct \w+ \*)?(\w+) = (.*)',s,re.S)
        if m and re.match(r'init_lexer',m.group(2)): self.ev('let lexer := init_lexer %s in'%self.text(call(m.group(2))[1][0])); return
        if m and re.match(r'init_(\w+)\(\)',m.group(2)): self.ev('let %s := %s in'%(m.group(1),m.group(2)[:-2])); return
        if m and m.group(1)=='symtab' and m.group(2)=='NULL': self.ev('let symtab := init_symbol_table in'); return
        if m and re.fullmatch(r'lexer->sequence\[(.*)\]',m.group(2)):
            self.ev('%s <- get (lx_seq lexer) %s ;;'%(m.group(1),self.get(re.fullmatch(r'lexer->sequence\[(.*)\]',m.group(2)).group(1)))); return
        if m and re.fullmatch(r'unresolved->refs\[(\w+)\]',m.group(2)):
            self.refat(re.fullmatch(r'unresolved->refs\[(\w+)\]',m.group(2)).group(1)); self.ev('let ref := r in'); return
        m=re.fullmatch(r'tk->(type|value) = (.*)',s)
        if m: self.ev('let tk := tk_set_%s tk %s in'%(m.group(1),self.get(m.group(2)))); return
        m=re.fullmatch(r'instr->(mnemonic|addr_bitfield|addr_bitflag) = (.*)',s)
        if m:
            if m.group(1)=='mnemonic' and not re.fullmatch(r'[A-Z_]+',m.group(2)): self.bad_enum=True; raise Skip()
            self.ev('let instr := set_%s instr %s in'%(m.group(1),self.get(m.group(2)))); return
        m=re.fullmatch(r'\(*(\w+)\)*\+\+',s)
        if m:
            v=m.group(1)
            if v in self.strs: self.strs[v]=(self.strs[v][0],self.strs[v][1]+1)
            else: self.ev('let %s := %s + 1 in'%(v,v))
            return
        m=re.fullmatch(r'(\w+) ?\+= ?(\w+)',s)
        if m:
            v,x=m.groups()
            if v in self.strs: self.strs[v]=(self.strs[v][0],self.strs[v][1]+int(x))
            else: self.ev('let %s := %s + %s in'%(v,v,self.get(x)))
            return
        m=re.fullmatch(r'int (\w+)',s)
        if m: return
        m=re.fullmatch(r'(?:int )?\(*(\w+)\)* = (.*)',s)
        if m:
            v=self.get(m.group(2)); self.ev('let %s := %s in'%(m.group(1),v)); return
        if c: self.do(*c); return
        raise KeyError('stmt '+s)
    def block(self,src,line0,fixed=False):
        i=0;start=0
        n=len(src)
        def ln(p): return line0 if fixed else line0+src[:p].count('\n')
        def skipstr(i):
            j=i+1
            while src[j]!='"': j+=2 if src[j]=='\\' else 1
            return j+1
        def brace(i):
            d=0
            while True:
                if src[i]=='"': i=skipstr(i); continue
                if src[i]=='{': d+=1
                if src[i]=='}':
                    d-=1
                    if d==0: return i+1
                i+=1
        def endstmt(i):
            d=0
            while True:
                if src[i]=='"': i=skipstr(i); continue
                if src[i] in '({[': d+=1
                if src[i] in ')}]': d-=1
                if src[i]==';' and d==0: return i+1
                i+=1
        while i<n:
            while i<n and src[i] in ' \t\r\n;': i+=1
            if i>=n: break
            if src[i]=='{':
                j=brace(i); self.block(src[i+1:j-1],ln(i),fixed); i=j; continue
            m=re.match(r'for \(int (\w+) = 0; \w+ < ([^;]+); \w+\+\+\)\s*',src[i:])
            if m:
                b=i+m.end()
                j=brace(b) if src[b]=='{' else endstmt(b)
                body=src[b:j]
                k={'MAX_TOKENS':8,'symtab->size':17,'unresolved->curr':4}[m.group(2)]
                if k==4: self.ev('let bad := chk %d (un_curr unresolved =? 4) bad in'%ln(i)); self.n+=1
                if k==17: self.ev('let bad := chk %d (tab_size symtab =? 17) bad in'%ln(i)); self.n+=1
                for q in range(k): self.block(re.sub(r'\[%s\]'%m.group(1),'[%d]'%q,body),ln(b),fixed)
                i=j; continue
            m=re.match(r'if \((.*)\) \{',src[i:])
            if m:
                b=i+m.end()-1; j=brace(b)
                cond=m.group(1)
                if not re.fullmatch(r'\w+',cond):
                    v=self.get('lexer->sequence[0]->type'); self.check(ln(i),'ty_eqb %s TOKEN_BASE'%v)
                self.block(src[b+1:j-1],ln(b),fixed); i=j; continue
            # a macro call or statement
            j=None
            m=re.match(r'(\w+)\(',src[i:])
            if m and m.group(1) in self.macros:
                j=endstmt(i)
            else: j=endstmt(i)
            self.bad_enum=getattr(self,'bad_enum',False)
            if self.bad_enum:
                self.bad_enum=False; self.skipped+=1
            else: self.stmt(src[i:j-1],ln(i))
            i=j
def main(out):
    ex=strip_comments(open(REPO+'parser/exhaustive_lines.h').read())
    strings={m.group(1):(m.group(2),0) for m in re.finditer(r'const char \*(\w+)\s*=\s*"(.*?)";',ex)}
    tot=sk=0; defs=[]
    for fn in FILES:
        raw=strip_comments(open(REPO+fn).read())
        macros={}
        def mac(m):
            macros[m.group(1)]=([x.strip() for x in m.group(2).split(',')],m.group(3).replace('\\\n','\n'))
            return '\n'*m.group(0).count('\n')
        # macros are used after their definition and may be redefined between files only
        src=re.sub(r'#define (\w+)\(([^)]*)\) ?\{ ?\\?((?:.*\\\n)+\})',mac,raw)
        macros={k:(p,b.strip().rstrip('}').strip()) for k,(p,b) in macros.items()}
        for m in re.finditer(r'^void (test_\w+)\(void\)\n\{',src,re.M):
            j=src.index('\n}\n',m.end())
            t=Tr(m.group(1),macros,strings if 'exhaustive_lines' in raw else {})
            t.block(src[m.end():j],src[:m.end()].count('\n')+1)
            tot+=t.n; sk+=t.skipped
            defs.append((fn,m.group(1),t))
    for fn in FILES:
        mod='Check_'+re.sub(r'^.*/test_(\w+)\.c$',r'\1',fn)
        mine=[(name,t) for f,name,t in defs if f==fn]
        o='''(** %s.v -- generated by tools/tests.py: the unit tests of /repo/tests/%s run on the model.
    These are tests of the model against the expectations of the authors of the program, not
    proofs of properties: %d assertions in %d test functions; %d assertions and statements without
    counterpart in the model are left out (pointers that are not NULL, the int returned by
    token_strcpy, enum values out of range).  Each computation returns the lines of the test file
    whose assertions fail. *)
From Verif Require Import Base Model_Opcode Model_Error Model_Lexer Model_SymbolTable Model_Parser
  Model_ForwardRef Model_Generator Check_Base.

'''%(mod,fn,sum(t.n for _,t in mine),len(mine),sum(t.skipped for _,t in mine))
        for name,t in mine:
            o+='(** %s: %d assertions *)\nDefinition %s : M (list Z) :=\n  let bad := @nil Z in\n'%(name,t.n,name)
            o+='\n'.join(t.out)+'\n  Ret (rev bad).\n'
            o+='Example %s_passes : %s = Ret [].\nProof. vm_compute. reflexivity. Qed.\n\n'%(name,name)
        open(out+mod+'.v','w').write(o)
        print('theories/'+mod+'.v',sum(t.n for _,t in mine))
    print(tot,sk,len(defs))
main(sys.argv[1] if len(sys.argv)>1 else '/verif/rocq/theories/')

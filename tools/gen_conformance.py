#!/usr/bin/env python3
"""Writes rocq/theories/Conformance.v and Conformance_List.v from /repo/tests.
The expected bit patterns come from the C++ literals by exact rational
arithmetic.  Usage: tools/gen_conformance.py [output directory]"""
import re,sys
from fractions import Fraction as Fr
R='/repo/tests/'
FMT={'F64':(52,11),'F32':(23,8),'F16':(10,5),'BF16':(7,8)}
def rnd(x,t,neg):
    fb,eb=FMT[t]; bias=(1<<(eb-1))-1; emin=1-bias-fb
    if x=='inf': b=((1<<eb)-1)<<fb
    elif x==0: b=0
    else:
        # exponent
        e=0
        n,d=x.numerator,x.denominator
        e=n.bit_length()-d.bit_length()
        if Fr(2)**e>x: e-=1
        q=max(e-fb,emin)
        m=x/Fr(2)**q
        f=m.numerator//m.denominator; r=m-f
        if r>Fr(1,2) or (r==Fr(1,2) and f&1): f+=1
        # f*2^q
        if q==emin: b=f
        else: b=((q-emin)<<fb)+f
        b=min(b,((1<<eb)-1)<<fb)
    return b|((1<<(fb+eb)) if neg else 0)
SUF=[('bf16','BF16'),('f16','F16'),('f','F32'),('','F64')]
def parse_expr(s):
    s=s.strip(); neg=False
    if s.startswith('-'): neg=True; s=s[1:].strip()
    m=re.match(r'std::numeric_limits<(std::)?(\w+)>::(\w+)\(\)$',s)
    if m:
        t={'double':'F64','float':'F32','float16_t':'F16','bfloat16_t':'BF16'}[m.group(2)]
        fb,eb=FMT[t]
        k=m.group(3); inf=((1<<eb)-1)<<fb
        b={'infinity':inf,'max':inf-1,'min':1<<fb,'denorm_min':1}[k]
        return t,b|((1<<(fb+eb)) if neg else 0)
    m=re.match(r'0x([0-9a-f]*)\.?([0-9a-f]*)p([+-]?\d+)(bf16|f16|f|)$',s)
    if m:
        a,b,e,suf=m.groups()
        t=dict(SUF)[suf]
        return t,rnd(Fr(int(a+b,16))*Fr(2)**(int(e)-4*len(b)),t,neg)
    m=re.match(r'(\d*)\.?(\d*)(?:[eE]([+-]?\d+))?(bf16|f16|f|)$',s)
    if m:
        a,b,e,suf=m.groups(); t=dict(SUF)[suf]
        return t,rnd(Fr(int(a+b))*Fr(10)**(int(e or 0)-len(b)),t,neg)
    raise Exception(s)
def strip_comments(s):
    s=re.sub(r'/\*.*?\*/',' ',s,flags=re.S)
    out=[]
    for l in s.split('\n'):
        # no // inside the literals used here
        out.append(re.sub(r'//.*','',l))
    return '\n'.join(out)
def split_args(s):
    args=[];d=0;cur='';q=False;i=0
    while i<len(s):
        ch=s[i]
        if q:
            cur+=ch
            if ch=='\\': cur+=s[i+1]; i+=1
            elif ch=='"': q=False
        elif ch=='"': q=True; cur+=ch
        elif ch in '({[': d+=1; cur+=ch
        elif ch in ')}]': d-=1; cur+=ch
        elif ch==',' and d==0: args.append(cur); cur=''
        else: cur+=ch
        i+=1
    if cur.strip(): args.append(cur)
    return args
def call_at(src,i):
    d=0;q=False;j=i
    while True:
        ch=src[j]
        if q:
            if ch=='\\': j+=1
            elif ch=='"': q=False
        elif ch=='"': q=True
        elif ch=='(': d+=1
        elif ch==')':
            d-=1
            if d==0: return src[i+1:j],j
        j+=1
ESC={'n':'\n','r':'\r','t':'\t','f':'\f','v':'\v','\\':'\\','"':'"','0':'\0'}
def lit(s):
    r=''
    for m in re.finditer(r'"((?:[^"\\]|\\.)*)"',s):
        r+=re.sub(r'\\(.)',lambda k:ESC[k.group(1)],m.group(1))
    return r
def text(s):
    """returns list of pieces: (string, zeros)"""
    s=s.strip()
    m=re.match(r'append_zeros\s*\(',s)
    if m:
        inner,j=call_at(s,m.end()-1)
        a=split_args(inner)
        rest=s[j+1:].strip()
        tail=lit(rest) if rest else ''
        if rest: assert re.match(r'\+\s*std::string\("',rest),rest
        return (lit(a[0]),int(a[1]),tail)
    assert s.startswith('"'),s
    return (lit(s),0,'')
EC={'':'Success'}
def basic():
    src=strip_comments(open(R+'basictest.cpp').read())
    start=src.index('TEST_CASE("double.inf")')
    out={}
    pos=start
    name=None
    for m in re.finditer(r'TEST_CASE\("([\w.]+)"\)|\b(verify|verify_runtime|verify_options|verify_options_runtime)\s*\(',src[start:]):
        if m.group(1): name=m.group(1); continue
        if name=='integer_times_pow10': break
        inner,_=call_at(src,start+m.end()-1)
        a=split_args(inner)
        if a[0].strip()=='test_string':
            k=src.rindex('test_string =',0,start+m.start())
            a[0]=src[k+len('test_string ='):src.index(';',k)]
        s,z,tl=text(a[0]); t,b=parse_expr(a[1])
        ec='Success'
        if len(a)>2:
            assert a[2].strip()=='std::errc::result_out_of_range'; ec='OutOfRange'
        dp=44 if 'options' in m.group(2) else 46
        out.setdefault(name,[]).append((t,s,z,tl,dp,b,ec))
    return out

def value_of(s):
    """exact value and sign of a decimal text"""
    m=re.match(r'([+-]?)(\d*)\.?(\d*)(?:[eE]([+-]?\d+))?$',s)
    sg,a,b,e=m.groups()
    return Fr(int(a+b))*Fr(10)**(int(e or 0)-len(b)), sg=='-'
def bits(s,t):
    v,n=value_of(s); return rnd(v,t,n)
def ec_of(s,t):
    """the code the test expects: result_out_of_range for an infinity, or for a
    zero whose digits are not all zero"""
    fb,eb=FMT[t]; m=bits(s,t)&((1<<(fb+eb))-1); v=value_of(s)[0]
    return 'OutOfRange' if m==((1<<eb)-1)<<fb or (m==0 and v!=0) else 'Success'
def coq_text(s,z=0,tail=''):
    def one(x):
        if all(32<=ord(c)<127 for c in x): return 'txt "%s"'%x.replace('"','""')
        return '['+'; '.join(str(ord(c)) for c in x)+']'
    r=one(s)
    if z: r='%s ++ zeros %d'%(r,z)
    if tail: r+=' ++ '+one(tail)
    return r
OUT=[]
def emit(x): OUT.append(x)
def fl(name,doc,cases):
    """cases: (t, text, fmt, dp, bits or None, ec, left)"""
    emit('(** %s *)'%doc)
    emit('Definition %s : list fcase := ['%name)
    L=[]
    for t,s,fmt,dp,b,ec,left in cases:
        if isinstance(s,tuple): s=coq_text(*s)
        else: s=coq_text(s)
        val='AnyNan' if b=='nan' else 'Nothing' if b is None else 'Bits %d'%b
        L.append('  fc %s (%s) %s %d (%s) %s %d'%(t,s,fmt,dp,val,ec,left))
    emit(';\n'.join(L)+'].\n')
GEN='f_general'
o=basic()
for k in o:
    fl(k.replace('.','_'),'basictest.cpp, TEST_CASE("%s")'%k,
       [(t,(s,z,tl),GEN,dp,b,ec,0) for (t,s,z,tl,dp,b,ec) in o[k]])
# verify32
L=[]
src=open(R+'basictest.cpp').read()
for m in re.finditer(r'verify32\((?!val)([^)]*)\)',src):
    t,b=parse_expr(m.group(1))
    fb=23; e=b>>fb; f=b&((1<<fb)-1)
    x=Fr(f if e==0 else f+(1<<fb))*Fr(2)**((e if e else 1)-127-23)
    for nd in (90,8):
        L.append(('F32','%.*e'%(nd,float(x)),GEN,46,b,'Success',0))
fl('float_verify32','basictest.cpp, verify32: the %.90e and %.8e prints of each value',L)
# issue8
k=src.index('TEST_CASE("issue8")'); pi=lit(src[k:src.index('for (int i',k)].split('char const *s =')[1])
L=[]
for i in range(16): L.append(('F64',pi[:len(pi)-i],GEN,46,parse_expr('0x1.921fb54442d18p+1')[1],'Success',0))
i19="234532.3426362,7869234.9823,324562.645"
L+=[('F64','abc',GEN,46,None,'InvalidArgument',3),
    ('F64','1,25',GEN,46,bits('1','F64'),'Success',3),('F64','1,25',GEN,44,bits('1.25','F64'),'Success',0),
    ('F64','1.25',GEN,44,bits('1','F64'),'Success',3),('F64','1.25',GEN,46,bits('1.25','F64'),'Success',0),
    ('F64',i19,GEN,46,bits('234532.3426362','F64'),'Success',len(i19)-14),
    ('F64',i19[15:],GEN,46,bits('7869234.9823','F64'),'Success',len(i19)-27),
    ('F64',i19[28:],GEN,46,bits('324562.645','F64'),'Success',0),
    ('F64','3.14e',GEN,46,bits('3.14','F64'),'Success',1),
    ('F64','3.14','f_scientific',46,None,'InvalidArgument',4),
    ('F64','3.14e10','f_scientific',46,bits('3.14e10','F64'),'Success',0),
    ('F64','3.14e10','f_fixed',46,bits('3.14','F64'),'Success',3)]
fl('basic_misc','basictest.cpp, TEST_CASEs issue8, check_behavior, decimal_point_parsing, issue19 (both), scientific_only, test_fixed_only',L)
# powers of ten
fl('powers_of_ten','basictest.cpp, TEST_CASE("powers_of_ten"): 1e-1000 to 1e308',
   [('F64','1e%d'%i,GEN,46,bits('1e%d'%i,'F64'),'OutOfRange' if i<-323 else 'Success',0) for i in range(-1000,309)])
# string_test
st="0.1 1e1000 100000 3.14159265359  -1e-500 001    1e01  1e0000001  -inf"
L=[]
for t in('F32','F64'):
    p=0
    fb,eb=FMT[t]
    for w in st.split():
        p=st.index(w,p)
        if w=='-inf': L.append((t,st[p:],GEN,46,(((1<<eb)-1)<<fb)|(1<<(fb+eb)),'Success',0))
        else: L.append((t,st[p:],GEN,46,bits(w,t),ec_of(w,t),len(st)-p-len(w)))
        p+=len(w)
fl('string_test','string_test.cpp, test()',L)
s2=strip_comments(open(R+'string_test.cpp').read())
k=s2.index('strint_list[] = {'); lst=[lit(x) for x in split_args(s2[s2.index('{',k)+1:s2.index('};',k)])]
fl('partow','string_test.cpp, partow_test()',[(t,s,GEN,46,bits(s,t),'Success',0) for t in('F32','F64') for s in lst if s])
# long_test
lt="0.156250000000000000000000000000000000000000  3.14159265358979323846264338327950288419716939937510 2.71828182845904523536028747135266249775724709369995"
L=[]
for t in('F32','F64'):
    p=0
    for w in lt.split():
        p=lt.index(w,p); L.append((t,lt[p:],GEN,46,bits(w,t),'Success',len(lt)-p-len(w))); p+=len(w)
fl('long_test','long_test.cpp',L)
# powersoffive_hardround: the ends of each range
L=[]
for q in range(18,28):
    p5=5**q
    lo=0x20000000000000//p5+1; hi=0xFFFFFFFFFFFFFFFF//p5
    for mnt in sorted({lo,lo+1,(lo+hi)//2,hi-1,hi}):
        if lo<=mnt<=hi: w='%de-%d'%(mnt*p5,q); L.append(('F64',w,GEN,46,bits(w,'F64'),'Success',0))
fl('powers_of_five','powersoffive_hardround.cpp: the ends and the middle of each range',L)
# exhaustive32_midpoint style: float midpoints
L=[]
import struct
for b in (0,1,2,0x7fffff,0x800000,0x800001,0x3f800000,0x3f800001,0x4b7fffff,0x7f7ffffe,0x1234567,0x2abcdef0,0x60000001):
    def v(b):
        e=b>>23; f=b&0x7fffff
        return Fr(f if e==0 else f+(1<<23))*Fr(2)**((e if e else 1)-150)
    mid=(v(b)+v(b+1))/2
    # mid as a double prints exactly; %.90e style
    d=float(mid); assert Fr(d)==mid
    w='%.64e'%d
    L.append(('F32',w,GEN,46,bits(w,'F32'),ec_of(w,'F32'),0))
fl('midpoints32','exhaustive32_midpoint.cpp: a few of its values, printed with 64 digits',L)
# example_test etc.
PLUS='(Z.lor f_general f_allow_leading_plus)'
L=[('F64','3.1416 xyz ',GEN,46,bits('3.1416','F64'),'Success',5),
   ('F64','3,1416 xyz ',GEN,44,bits('3.1416','F64'),'Success',5),
   ('F64','3e-1000',GEN,46,0,'OutOfRange',0),('F64','3e1000',GEN,46,0x7ff<<52,'OutOfRange',0),
   ('F64','3.1415 input',GEN,46,bits('3.1415','F64'),'Success',6),
   ('F16','10000e-1452',GEN,46,0,'OutOfRange',0),
   ('F64','4.2',GEN,46,bits('4.2','F64'),'Success',0)]
for t,xs in(('F32',["123.456","-78.9","0.0001","3.40282e+038"]),('F64',["1.23e4","-5.67e-8","1.7976931348623157e+308","-1.7976931348623157e+308"])):
    for x in xs: L.append((t,x,GEN,46,bits(x,t),'Success',0))
L+=[('F64','-42',GEN,46,bits('-42','F64'),'Success',0),('F64','+42',PLUS,46,bits('42','F64'),'Success',0),
    ('F64',' 42','(Z.lor f_general f_skip_white_space)',46,bits('42','F64'),'Success',0),('F64','nan',GEN,46,'nan','Success',0)]
fl('examples','example_test.cpp, example_comma_test.cpp, p2497.cpp, supported_chars_test.cpp, fixedwidthtest.cpp, wide_char_test.cpp (unaltered texts)',L)
emit('(** wide_char_test.cpp: the same texts with 256 added to the first unit are refused. *)')
emit('Definition wide_altered : list (list Z * Z) := [')
emit(';\n'.join('  ([%s], %s)'%('; '.join(str(x) for x in [ord(s[0])+256]+[ord(c) for c in s[1:]]),f) for s,f in(('-42',GEN),('+42',PLUS),(' 42','(Z.lor f_general f_skip_white_space)'),('nan',GEN)))+'].\n')
# rcppfastfloat
src=open(R+'rcppfastfloat_test.cpp').read()
k=src.index('test_datas = {'); body=src[src.index('{',k)+1:src.index('\n  };',k)]
RF='(Z.lor f_general (Z.lor f_allow_leading_plus f_skip_white_space))'
good=[];bad=[]
for it in split_args(body):
    it=it.strip()
    if not it: continue
    a=split_args(it[1:-1]); s=lit(a[0])
    if a[1].strip()=='true':
        e=a[2].strip()
        b='nan' if 'quiet_NaN' in e else parse_expr(e)[1]
        core=s.strip(' \r\n\t\f\v'); left=len(s)-(s.index(core)+len(core))
        good.append(('F64',s,RF,46,b,'Success',left))
    else: bad.append(s)
fl('rcpp_accepted','rcppfastfloat_test.cpp, expected_success',good)
emit('(** rcppfastfloat_test.cpp, not expected_success: an error, or something other than space is left. *)')
emit('Definition rcpp_refused : list (list Z) := [')
emit(';\n'.join('  '+coq_text(s) for s in bad)+'].\n')
# json
src=open(R+'json_fmt.cpp').read()
k=src.index('accept{'); body=src[k+7:src.index('};',k)]
L=[]
for it in split_args(body):
    it=it.strip(); a=split_args(it[1:-1]); b2=split_args(a[1].strip()[1:-1])
    L.append(('F64',lit(a[0]),'f_json_or_infnan',46,parse_expr(b2[0])[1],'Success',len(lit(b2[1]))))
fl('json_accepted','json_fmt.cpp, accept',L)
k=src.index('reject{'); body=strip_comments(src[k+7:src.index('};',k)])
emit('(** json_fmt.cpp, reject: the reason and its position. *)')
emit('Definition json_rejected : list (list Z * parse_error * Z) := [')
L=[]
for it in split_args(body):
    it=it.strip(); a=split_args(it[1:-1]); b2=split_args(a[1].strip()[1:-1])
    en=b2[0].split('::')[-1].strip(); en=en[0].upper()+en[1:]
    L.append('  (%s, %s, %d)'%(coq_text(lit(a[0])),en,int(b2[1])))
emit(';\n'.join(L)+'].\n')
# fortran
FP='(Z.lor f_fortran f_allow_leading_plus)'
L=[]
for e in range(4,-5,-1):
    for pre in('1%+d','1d%+d','+1%+d'): L.append(('F64',pre%e,FP,46,bits('1e%d'%e,'F64'),'Success',0))
fl('fortran','fortran.cpp',L)
# integer_times_pow10
src=open(R+'basictest.cpp').read(); k=src.index('TEST_CASE("integer_times_pow10")'); src=src[k:]
L=[]
src=strip_comments(src)
def iv(s):
    s=s.strip()
    m=re.match(r'std::numeric_limits<(u?)int64_t>::max\(\)$',s)
    if m: return 2**64-1 if m.group(1) else 2**63-1
    s=s.replace('ull','')
    assert re.match(r'[-\d /+]+$',s),s
    return eval(s.replace('/','//'))
for m in re.finditer(r'(all::)?(verify_integer_times_pow10(?:_dflt)?)(?:<([^>]*)>)?\s*\(',src):
    inner,_=call_at(src,m.end()-1); a=split_args(inner)
    mm=iv(a[0]); e=int(a[1])
    sgn='true' if mm<2**63 else 'false'
    if m.group(1): 
        for t in('F64','F32','F16','BF16'):
            L.append((t,mm,e,rnd(Fr(abs(mm))*Fr(10)**e,t,mm<0)))
    else:
        t,b=parse_expr(a[2].strip() if not a[2].strip().endswith('0.') else '0.0')
        if m.group(2).endswith('dflt'): t='F64'
        L.append((t,mm,e,b))
emit('(** basictest.cpp, TEST_CASE("integer_times_pow10"); a mantissa of a narrower type is converted to 64 bits. *)')
emit('Definition pow10_cases : list (ftype * Z * Z * Z) := [')
seen=[]
for x in L:
    if x not in seen: seen.append(x)
emit(';\n'.join('  (%s, %d, %d, %d)'%x for x in seen)+'].\n')
# fast_int
src=open(R+'fast_int.cpp').read()
TY={'int':'int32_type','unsigned':'uint32_type','char':'int8_type','short':'int16_type','long':'int64_type','long long':'int64_type',
    'unsigned char':'uint8_type','unsigned short':'uint16_type','unsigned long':'uint64_type','unsigned long long':'uint64_type','bool':'bool_type',
    'int8_t':'int8_type','int16_t':'int16_type','int32_t':'int32_type','int64_t':'int64_type','uint8_t':'uint8_type','uint16_t':'uint16_type','uint32_t':'uint32_type','uint64_t':'uint64_type'}
exp={m.group(2):[x.strip() for x in split_args(m.group(3))] for m in re.finditer(r'std::vector<([\w ]+)> const (\w+)_expected\{([^}]*)\}',src)}
L=[]
DIG='0123456789abcdefghijklmnopqrstuvwxyz'
def read(s,base):
    i=0;neg=False
    if s[:1]=='-': neg=True;i=1
    v=0;j=i
    while j<len(s) and s[j].lower() in DIG and DIG.index(s[j].lower())<base: v=v*base+DIG.index(s[j].lower()); j+=1
    return (-v if neg else v),len(s)-j
for m in re.finditer(r'std::vector<std::string_view> const (\w+)\{([^}]*)\};',src):
    name=m.group(1); items=[lit(x) for x in split_args(m.group(2))]
    loop=src[m.end():m.end()+900]
    ty=re.search(r'\n    ([\w ]+) result;',loop).group(1)
    call=re.search(r'from_chars\(f\.data\(\), f\.data\(\) \+ f\.size\(\), result(?:,\s*(.*?))?\);',loop,re.S)
    be=call.group(1)
    ecx=re.search(r'answer\.ec != (std::errc(?:\(\)|::\w+))',loop).group(1)
    ecx={'std::errc()':'Success','std::errc::invalid_argument':'InvalidArgument','std::errc::result_out_of_range':'OutOfRange'}[ecx]
    for i,s in enumerate(items):
        if be is None: base=10
        elif re.match(r'-?\d+$',be): base=int(be)
        elif 'i / 2' in be: base=2+i//2
        else: base=2+i
        if ecx=='Success':
            v,left=read(s,base)
            if name in exp:
                x=exp[name][i]; x={'true':1,'false':0}.get(x); 
                x=int(exp[name][i]) if x is None else x
                assert x==v,(name,s,x,v)
            if name=='int_leading_zeros_test': assert v==1015
            val='Some (%d)'%v; lf='Some %d'%left
        else: val='None'; lf='None'
        L.append('  ic %s (%s) (%d) (%s) %s (%s)'%(TY[ty],coq_text(s),base,val,ecx,lf))
for s,ty,v,left,ec in (('1001 with text','int',1001,10,'Success'),('1001 with text\n','int',1001,11,'Success'),('9.999','int',9,4,'Success'),('+50','int',None,3,'InvalidArgument'),('1001 with text','unsigned',1001,10,'Success'),('-50','unsigned',None,3,'InvalidArgument')):
    L.append('  ic %s (%s) 10 (%s) %s (Some %d)'%(TY[ty],coq_text(s),'None' if v is None else 'Some %d'%v,ec,left))
emit('(** fast_int.cpp: the basic, error, pointer and base tests. *)')
emit('Definition int_cases : list icase := [')
emit(';\n'.join(L)+'].\n')
def units16(s):
    b=s.encode('utf-16-le'); return [b[i]|b[i+1]<<8 for i in range(0,len(b),2)]
def lits(p,a,b):
    return re.findall(p+r'"([^"]*)"',src[a:b])
k16=src.index('const std::u16string emojis'); k32=src.index('const std::u32string emojis'); kb=src.index('const std::u16string bad16'); kb32=src.index('const std::u32string bad32')
e16=[units16(s) for s in lits('u',k16,k32)]; e32=[[ord(c) for c in s] for s in lits('U',k32,kb)]
b16=[units16(s) for s in lits('u',kb,kb32)]; b32=[[ord(c) for c in s] for s in lits('U',kb32,len(src))]
def lol(name,doc,x):
    emit('(** %s *)'%doc); emit('Definition %s : list (list Z) := ['%name); emit(';\n'.join('  [%s]'%'; '.join(map(str,y)) for y in x)+'].\n')
lol('emojis16','fast_int.cpp: UTF-16 units of emojis',e16); lol('emojis32','fast_int.cpp: UTF-32 units of emojis',e32)
lol('wide16','fast_int.cpp: bad16',b16); lol('wide32','fast_int.cpp: bad32',b32)

HEAD = r'''(** Validation of the model (not a claim): the texts, flags and expected
    results of the repository's own tests (/repo/tests), with the model
    evaluated on each of them in several builds.  The expected bit patterns were
    computed from the C++ literals by exact rational arithmetic
    (tools/gen_conformance.py, which writes this file).

    These are tests, evaluated by coqc while it compiles this file, and not
    proofs of any property; they show that the
    functions the theorems are about compute what the library's authors say the
    library computes. *)
From Coq Require Import ZArith List String Ascii Bool.
From Verif Require Import Machine Config Chars Format ParseNumber DecToBin FromChars Ints
  Props_Pow10 Props_Ints.
Import ListNotations.
Open Scope Z_scope.

(** Evaluates a check while the file is compiled; an error unless it is true. *)
Ltac holds b := let r := eval vm_compute in b in match r with true => exact I end.

Definition txt (s : string) : list Z := map (fun a => Z.of_nat (nat_of_ascii a)) (list_ascii_of_string s).
Definition zeros (n : nat) : list Z := repeat 48 n.
Definition int16_type : ity := {| i_signed := true; i_bits := 16; i_is_u8 := false; i_is_u16 := false; i_is_u64 := false |}.

(** What a test expects of the stored value. *)
Inductive expected := Nothing | AnyNan | Bits (b : Z).
Record fcase := { f_type : ftype; f_text : list Z; f_fmt : Z; f_point : Z;
                  f_value : expected; f_ec : ec; f_left : Z }.
Definition fc t s f d v e l := {| f_type := t; f_text := s; f_fmt := f; f_point := d;
                                  f_value := v; f_ec := e; f_left := l |}.
Record icase := { i_type : ity; i_text : list Z; i_base : Z; i_value : option Z; i_ec : ec; i_left : option Z }.
Definition ic t s b v e l := {| i_type := t; i_text := s; i_base := b; i_value := v; i_ec := e; i_left := l |}.

Definition ec_eqb (a b : ec) : bool :=
  match a, b with Success, Success | InvalidArgument, InvalidArgument | OutOfRange, OutOfRange => true | _, _ => false end.

(** A value x with x != x: all exponent bits set and a nonzero fraction. *)
Definition is_nan (t : ftype) (b : Z) : bool :=
  let '(fb, eb) := match t with F64 => (52, 11) | F32 => (23, 8) | F16 => (10, 5) | BF16 => (7, 8) end in
  ((b / 2 ^ fb) mod 2 ^ eb =? 2 ^ eb - 1) && negb (b mod 2 ^ fb =? 0).

Definition float_ok (c : cfg) (u : uc) (k : fcase) : bool :=
  match from_chars_float_advanced c u (f_type k) (f_text k)
          {| o_format := f_fmt k; o_decimal_point := f_point k; o_base := 10 |} with
  | UB => false
  | Ok r => ec_eqb (r_ec r) (f_ec k) && (Z.of_nat (List.length (r_ptr r)) =? f_left k) &&
            match f_value k, r_value r with
            | Nothing, None => true
            | AnyNan, Some b => is_nan (f_type k) b
            | Bits b, Some b' => b =? b'
            | _, _ => false
            end
  end.

Definition int_ok (c : cfg) (u : uc) (k : icase) : bool :=
  match from_chars_int c u (i_type k) (i_text k) (i_base k) with
  | UB => false
  | Ok r => ec_eqb (r_ec r) (i_ec k) &&
            match i_left k with Some n => Z.of_nat (List.length (r_ptr r)) =? n | None => true end &&
            match i_value k, r_value r with
            | None, None => true | Some a, Some b => a =? b | _, _ => false
            end
  end.

(** The tests that only want a failure. *)
Definition int_fails (c : cfg) (u : uc) (T : ity) (s : list Z) : bool :=
  match from_chars_int c u T s 10 with UB => false | Ok r => negb (ec_eqb (r_ec r) Success) end.
Definition float_fails (c : cfg) (u : uc) (s : list Z) (fmt : Z) : bool :=
  match from_chars_float c u F64 s fmt with UB => false | Ok r => negb (ec_eqb (r_ec r) Success) end.

(** Builds: x86-64 with GCC or Clang; the same in a constant expression; a
    32-bit big-endian machine without builtins and AArch64 with NEON, these
    two with the asserts on and with other rounding modes (as the tests do with
    fesetround).  A build with x87 arithmetic takes part in two of the lists. *)
Definition cfg_constexpr : cfg :=
  {| in_constexpr := true; big_endian := false; is_clang := true; is_32bit := false;
     sparc := false; int128 := true; clz_builtin := true; add_overflow_builtin := true;
     simd := Sse2; eval := Eval0; half_in_float := false; rmode := ToNearest; flush := false;
     macro_leading_plus := false; macro_skip_ws := false; asserts := false |}.
Definition cfg_be32 : cfg :=
  {| in_constexpr := false; big_endian := true; is_clang := false; is_32bit := true;
     sparc := false; int128 := false; clz_builtin := false; add_overflow_builtin := false;
     simd := NoSimd; eval := Eval1; half_in_float := false; rmode := Upward; flush := false;
     macro_leading_plus := false; macro_skip_ws := false; asserts := true |}.
Definition cfg_neon : cfg :=
  {| in_constexpr := false; big_endian := false; is_clang := true; is_32bit := false;
     sparc := false; int128 := true; clz_builtin := true; add_overflow_builtin := true;
     simd := Neon; eval := Eval0; half_in_float := false; rmode := Downward; flush := false;
     macro_leading_plus := false; macro_skip_ws := false; asserts := true |}.
Definition cfg_x87 : cfg :=
  {| in_constexpr := false; big_endian := false; is_clang := false; is_32bit := true;
     sparc := false; int128 := false; clz_builtin := true; add_overflow_builtin := true;
     simd := NoSimd; eval := Eval2; half_in_float := false; rmode := TowardZero; flush := false;
     macro_leading_plus := false; macro_skip_ws := false; asserts := false |}.
Definition builds : list cfg := [cfg_x86_64; cfg_constexpr; cfg_be32; cfg_neon].

Definition floats_ok (c : cfg) (us : list uc) (l : list fcase) : bool :=
  forallb (fun u => forallb (float_ok c u) l) us.

Definition perr_eqb (a b : parse_error) : bool :=
  match a, b with
  | No_error, No_error | Missing_integer_after_sign, Missing_integer_after_sign
  | Missing_integer_or_dot_after_sign, Missing_integer_or_dot_after_sign
  | Leading_zeros_in_integer_part, Leading_zeros_in_integer_part
  | No_digits_in_integer_part, No_digits_in_integer_part
  | No_digits_in_fractional_part, No_digits_in_fractional_part
  | No_digits_in_mantissa, No_digits_in_mantissa
  | Missing_exponential_part, Missing_exponential_part => true
  | _, _ => false
  end.

'''
TAIL = r'''(** ** The floating-point tests, in every build with char, and on x86-64
    with char16_t and char32_t too (as basic_test does). *)
Example double_inf_conform : forallb (fun c => floats_ok c [Char_s] double_inf) builds && floats_ok cfg_x86_64 [Char16; Char32] double_inf = true.
Proof. vm_cast_no_check (eq_refl true). Qed.
Example double_general_conform : forallb (fun c => floats_ok c [Char_s] double_general) builds && floats_ok cfg_x86_64 [Char16; Char32] double_general = true.
Proof. vm_cast_no_check (eq_refl true). Qed.
Example double_decimal_point_conform : forallb (fun c => floats_ok c [Char_s] double_decimal_point) builds && floats_ok cfg_x86_64 [Char16; Char32] double_decimal_point = true.
Proof. vm_cast_no_check (eq_refl true). Qed.
Example float_inf_conform : forallb (fun c => floats_ok c [Char_s] float_inf) builds && floats_ok cfg_x86_64 [Char16; Char32] float_inf = true.
Proof. vm_cast_no_check (eq_refl true). Qed.
Example float_general_conform : forallb (fun c => floats_ok c [Char_s] float_general) builds && floats_ok cfg_x86_64 [Char16; Char32] float_general = true.
Proof. vm_cast_no_check (eq_refl true). Qed.
Example float_decimal_point_conform : forallb (fun c => floats_ok c [Char_s] float_decimal_point) builds && floats_ok cfg_x86_64 [Char16; Char32] float_decimal_point = true.
Proof. vm_cast_no_check (eq_refl true). Qed.
Example float16_inf_conform : forallb (fun c => floats_ok c [Char_s] float16_inf) builds && floats_ok cfg_x86_64 [Char16; Char32] float16_inf = true.
Proof. vm_cast_no_check (eq_refl true). Qed.
Example float16_general_conform : forallb (fun c => floats_ok c [Char_s] float16_general) builds && floats_ok cfg_x86_64 [Char16; Char32] float16_general = true.
Proof. vm_cast_no_check (eq_refl true). Qed.
Example bfloat16_inf_conform : forallb (fun c => floats_ok c [Char_s] bfloat16_inf) builds && floats_ok cfg_x86_64 [Char16; Char32] bfloat16_inf = true.
Proof. vm_cast_no_check (eq_refl true). Qed.
Example bfloat16_general_conform : forallb (fun c => floats_ok c [Char_s] bfloat16_general) builds && floats_ok cfg_x86_64 [Char16; Char32] bfloat16_general = true.
Proof. vm_cast_no_check (eq_refl true). Qed.
Example float_verify32_conform : forallb (fun c => floats_ok c [Char_s] float_verify32) builds && floats_ok cfg_x86_64 [Char16; Char32] float_verify32 = true.
Proof. vm_cast_no_check (eq_refl true). Qed.
Example basic_misc_conform : forallb (fun c => floats_ok c [Char_s] basic_misc) builds && floats_ok cfg_x86_64 [Char16; Char32] basic_misc = true.
Proof. vm_cast_no_check (eq_refl true). Qed.
Example powers_of_ten_conform : forallb (fun c => floats_ok c [Char_s] powers_of_ten) builds && floats_ok cfg_x86_64 [Char16; Char32] powers_of_ten = true.
Proof. vm_cast_no_check (eq_refl true). Qed.
Example string_test_conform : forallb (fun c => floats_ok c [Char_s] string_test) builds && floats_ok cfg_x86_64 [Char16; Char32] string_test = true.
Proof. vm_cast_no_check (eq_refl true). Qed.
Example long_test_conform : forallb (fun c => floats_ok c [Char_s] long_test) builds && floats_ok cfg_x86_64 [Char16; Char32] long_test = true.
Proof. vm_cast_no_check (eq_refl true). Qed.
Example powers_of_five_conform : forallb (fun c => floats_ok c [Char_s] powers_of_five) builds && floats_ok cfg_x86_64 [Char16; Char32] powers_of_five = true.
Proof. vm_cast_no_check (eq_refl true). Qed.
Example midpoints32_conform : forallb (fun c => floats_ok c [Char_s] midpoints32) builds && floats_ok cfg_x86_64 [Char16; Char32] midpoints32 = true.
Proof. vm_cast_no_check (eq_refl true). Qed.
Example examples_conform : forallb (fun c => floats_ok c [Char_s] examples) builds && floats_ok cfg_x86_64 [Char16; Char32] examples = true.
Proof. vm_cast_no_check (eq_refl true). Qed.
Example rcpp_accepted_conform : forallb (fun c => floats_ok c [Char_s] rcpp_accepted) builds && floats_ok cfg_x86_64 [Char16; Char32] rcpp_accepted = true.
Proof. vm_cast_no_check (eq_refl true). Qed.
Example json_accepted_conform : forallb (fun c => floats_ok c [Char_s] json_accepted) builds && floats_ok cfg_x86_64 [Char16; Char32] json_accepted = true.
Proof. vm_cast_no_check (eq_refl true). Qed.
Example fortran_conform : forallb (fun c => floats_ok c [Char_s] fortran) builds && floats_ok cfg_x86_64 [Char16; Char32] fortran = true.
Proof. vm_cast_no_check (eq_refl true). Qed.

Example x87_conform : floats_ok cfg_x87 [Char_s] (json_accepted ++ string_test) = true.
Proof. vm_cast_no_check (eq_refl true). Qed.

Example wide_altered_conform : forallb (fun c => forallb (fun k => float_fails c Wchar_s32 (fst k) (snd k)) wide_altered) builds = true.
Proof. vm_cast_no_check (eq_refl true). Qed.

Definition rcpp_fails (c : cfg) (s : list Z) : bool :=
  match from_chars_float c Char_s F64 s (Z.lor f_general (Z.lor f_allow_leading_plus f_skip_white_space)) with
  | UB => false
  | Ok r => negb (ec_eqb (r_ec r) Success) || existsb (fun x => match is_space x with Ok b => negb b | UB => true end) (r_ptr r)
  end.
Example rcpp_refused_conform : forallb (fun c => forallb (rcpp_fails c) rcpp_refused) builds = true.
Proof. vm_cast_no_check (eq_refl true). Qed.

(** json_fmt.cpp calls parse_number_string<true> with json | allow_leading_plus. *)
Definition json_reason (c : cfg) (k : list Z * parse_error * Z) : bool :=
  let '(s, e, off) := k in
  match parse_number_string c Char_s true s
          {| o_format := Z.lor f_json f_allow_leading_plus; o_decimal_point := 46; o_base := 10 |} true with
  | UB => false
  | Ok a => negb (pn_valid a) && perr_eqb (pn_error a) e &&
            (Z.of_nat (List.length s) - Z.of_nat (List.length (pn_lastmatch a)) =? off)
  end.
Example json_rejected_conform :
  forallb (fun c => forallb (fun k => float_fails c Char_s (fst (fst k)) f_json && json_reason c k) json_rejected) builds = true.
Proof. vm_cast_no_check (eq_refl true). Qed.

(** A signed mantissa below 2^63 goes to the int64_t overload, and a
    nonnegative one to the uint64_t overload too. *)
Definition pow10_ok (c : cfg) (k : ftype * Z * Z * Z) : bool :=
  let '(t, m, e, b) := k in
  (if m <? 2 ^ 63 then match integer_times_pow10_s c t m e with Ok v => v =? b | UB => false end else true) &&
  (if 0 <=? m then match integer_times_pow10_u c t m e with Ok v => v =? b | UB => false end else true).
Example pow10_cases_conform : forallb (fun c => forallb (pow10_ok c) pow10_cases) builds = true.
Proof. vm_cast_no_check (eq_refl true). Qed.

(** ** The integer tests *)
Example int_cases_conform :
  forallb (fun c => forallb (fun u => forallb (int_ok c u) int_cases) [Char_s; Char16; Char32; Wchar_s32]) builds = true.
Proof. vm_cast_no_check (eq_refl true). Qed.
Example emojis_conform :
  forallb (fun c => forallb (int_fails c Char16 int32_type) emojis16 && forallb (int_fails c Char32 int32_type) emojis32 &&
                    forallb (fun T => forallb (int_fails c Char16 T) wide16 && forallb (int_fails c Char32 T) wide32)
                            [uint8_type; uint16_type]) builds = true.
Proof. vm_cast_no_check (eq_refl true). Qed.

(** ** The helpers tested directly (basictest.cpp) *)
Example leading_zeroes_conform :
  forallb (fun c => forallb (fun k => match leading_zeroes c (Z.shiftl 1 (fst k)) with Ok n => n =? snd k | UB => false end)
                            [(0, 63); (1, 62); (2, 61); (61, 2); (62, 1); (63, 0)]) builds = true.
Proof. vm_cast_no_check (eq_refl true). Qed.
Definition mul_ok (c : cfg) (k : Z * Z * Z * Z) : bool :=
  let '(a, b, lo, hi) := k in
  let ok x y := let '(l, h) := full_multiplication c x y in (l =? lo) && (h =? hi) in ok a b && ok b a.
Example full_multiplication_conform :
  forallb (fun c => forallb (mul_ok c)
    [(1, 1, 1, 0); (1, 2 ^ 63, 2 ^ 63, 0); (2, 2 ^ 63, 0, 1); (2 ^ 63, 1, 2 ^ 63, 0); (2 ^ 63, 2, 0, 1);
     (2 ^ 63, 4, 0, 2); (2 ^ 63, 2 ^ 63, 0, 2 ^ 62)]) builds = true.
Proof. vm_cast_no_check (eq_refl true). Qed.
Example rounds_to_nearest_conform :
  negb (rounds_to_nearest cfg_be32) && negb (rounds_to_nearest cfg_neon) && rounds_to_nearest cfg_x86_64 = true.
Proof. vm_cast_no_check (eq_refl true). Qed.
'''
LHEAD = r'''(** Validation of the model, continued: the long list of string_test.cpp
    (see Conformance.v), on x86-64. *)
From Coq Require Import ZArith List String Bool.
From Verif Require Import Machine Config Chars Format FromChars Props_Pow10 Conformance.
Import ListNotations.
Open Scope Z_scope.

'''
LTAIL = r'''Example partow_conform : floats_ok cfg_x86_64 [Char_s] partow = true.
Proof. vm_cast_no_check (eq_refl true). Qed.
'''
data='\n'.join(OUT)+'\n'
# coqc evaluates the checks and rejects the file if one is false; no evaluation
# is left in the compiled file, so that checking it again is cheap.
import re
def checks(x):
    x=re.sub(r'Example (\w+)\s*:\s*(.*?) = true\.\nProof\. vm_cast_no_check \(eq_refl true\)\. Qed\.',
             r'Definition \1 : bool := \2.\nCheck ltac:(holds \1).',x,flags=re.S)
    assert 'vm_cast' not in x
    return x
TAIL=checks(TAIL); LTAIL=checks(LTAIL)
i=data.index('(** string_test.cpp, partow_test() *)'); j=data.index('(** long_test.cpp *)')
import os
d=sys.argv[1] if len(sys.argv)>1 else os.path.join(os.path.dirname(os.path.abspath(__file__)),'..','rocq','theories')
open(os.path.join(d,'Conformance.v'),'w').write(HEAD+data[:i]+data[j:]+TAIL)
open(os.path.join(d,'Conformance_List.v'),'w').write(LHEAD+data[i:j]+LTAIL)

import re,json,sys
def lex(s):
    i=0;out=[]
    while i<len(s):
        c=s[i]
        if c.isspace(): i+=1;continue
        if s.startswith('//',i):
            j=s.find('\n',i); i=len(s) if j<0 else j; continue
        if c=='`':
            j=s.index('`',i+1); out.append(('s',s[i+1:j])); i=j+1; continue
        if c=='"':
            j=i+1;b=''
            while s[j]!='"':
                if s[j]=='\\': b+=s[j:j+2]; j+=2
                else: b+=s[j]; j+=1
            out.append(('s',json.loads('"'+b.replace("\\'","'")+'"'))); i=j+1; continue
        m=re.match(r'[A-Za-z_][\w.]*',s[i:])
        if m: out.append(('i',m.group())); i+=m.end(); continue
        m=re.match(r':=|[0-9]+|!=|==|\S',s[i:]); out.append(('p',m.group())); i+=m.end()
    return out
def strip(h):
    if h.startswith('\n'): h=h[1:]
    return re.sub(r'(?m)^\t*','',h)
class Bad(Exception): pass
def run(path):
    src=open(path).read(); tests=[]
    for m in re.finditer(r'(?ms)^func (Test\w+)\(t \*testing.T\) \{\n(.*?)^\}',src):
        name,body=m.groups(); toks=lex(body); env={'applyPrefix':'-- Apply --\n','nothingModified':'-- Nothing is modified --\n'}
        steps=[];pos=0;bad=[]
        def expr(p):
            v,p=atom(p)
            while p<len(toks) and toks[p]==('p','+'):
                w,p=atom(p+1); v+=w
            return v,p
        def atom(p):
            k,x=toks[p]
            if k=='s': return x,p+1
            if k=='i' and x=='stripHeredoc':
                v,p=expr(p+2)
                if toks[p]==('p',','): p+=1
                return strip(v),p+1
            if k=='i' and x in env: return env[x],p+1
            raise Bad(x)
        try:
            while pos<len(toks):
                k,x=toks[pos]
                if k=='i' and x=='resetTestDatabase': steps.append(('reset',)); pos+=3; continue
                if k=='i' and x=='assertApply':
                    v,p=expr(pos+4); 
                    if toks[p]==('p',','): p+=1
                    steps.append(('apply',v,None)); pos=p+1; continue
                if k=='i' and x=='assertApplyOutput':
                    v,p=expr(pos+4); w,p=expr(p+1)
                    if toks[p]==('p',','): p+=1
                    steps.append(('apply',v,w)); pos=p+1; continue
                if k=='i' and pos+1<len(toks) and toks[pos+1][1] in (':=','='):
                    v,p=expr(pos+2); env[x]=v; pos=p; continue
                raise Bad(x)
        except (Bad,IndexError) as e: bad.append(str(e))
        tests.append((name,steps,bad))
    return tests
if __name__=='__main__':
    for d in ['mysqldef','psqldef','mssqldef','sqlite3def']:
        T=run('/repo/cmd/%s/%s_test.go'%(d,d)); json.dump(T,open(d+'.json','w'))
        print(d,len(T),sum(len([s for s in t[1] if s[0]=='apply' and s[2]]) for t in T),[ (t[0],t[2]) for t in T if t[2]])

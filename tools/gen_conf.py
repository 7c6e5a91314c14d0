#!/usr/bin/env python3
"""Extract (input, expected output) pairs from the project's unit tests (by parsing the test
files with `ast`; nothing of the project is executed) and write them as Coq examples.
usage: gen_conf.py creole|html > theories/Conf_....v"""
import ast, sys, textwrap, os
T = "/repo/creole/tests"
MODE = sys.argv[1]
class Skip(Exception): pass
def prepare(txt):
    txt = textwrap.dedent(txt)
    txt = "\n".join(l.rstrip(" ") for l in txt.splitlines())
    return txt[1:] if txt.startswith("\n") else txt
def strip_lines_(h):
    return "\n".join([l.strip(" \t") for l in h.splitlines() if l])
def coqstr(s):
    parts=[];cur=""
    def flush():
        nonlocal cur
        if cur: parts.append('L "%s"' % cur.replace('"','""')); cur=""
    for ch in s:
        if 32<=ord(ch)<127 or ch in "\n\t": cur+=ch
        else: flush(); parts.append("[%d]"%ord(ch))
    flush()
    return "(" + (" ++ ".join(parts) if parts else "[]") + ")"
EX=[]
class Sym:
    def __init__(s,n): s.n=n
def ev(e, env):
    if isinstance(e, ast.Constant): return e.value
    if isinstance(e, ast.Name):
        if e.id in env: return env[e.id]
        return Sym(e.id)
    if isinstance(e, ast.Attribute): return Sym(ast.unparse(e))
    if isinstance(e, ast.Dict): return Sym(ast.unparse(e))
    if isinstance(e, ast.Call):
        f=ast.unparse(e.func)
        if f in ("creole2html","html2creole","html2textile","html2markdown","html2rest"): return ("conv",f,*args(e,env))
        if f in ("cleandoc","inspect.cleandoc"):
            import inspect
            return inspect.cleandoc(ev(e.args[0],env))
        if f=="self._prepare_text": return prepare(ev(e.args[0],env))
        raise Skip(f)
    if isinstance(e, ast.BinOp): 
        a,b=ev(e.left,env),ev(e.right,env)
        return a+b if isinstance(e.op,ast.Add) else a%b
    if isinstance(e,(ast.Tuple,ast.List)): return [ev(x,env) for x in e.elts]
    raise Skip(ast.dump(e)[:80])
def args(c, env):
    kw={}
    for k in c.keywords:
        if k.arg is None: raise Skip("**")
        kw[k.arg]=ev(k.value,env)
    return [ev(a,env) for a in c.args], kw
MAC={"None":"no_md","example_macros":"ex_md","test_macros":"tm_md","{'code': example_macros.code}":"ex_md"}
def bind(names, a, kw):
    d=dict(zip(names,a)); d.update(kw); return d
def add_c2h(where, markup, html, strip, kw):
    if MODE!="creole": return
    mac=kw.get("macros"); mac="None" if mac is None else mac.n
    if mac not in MAC: raise Skip("macros "+mac)
    v=kw.get("verbose",True); v = "None" if v is None else "(Some %d%%Z)"%int(v)
    o="(mkopts %s %s %s)"%(str(kw.get("blog_line_breaks",True)).lower(), v, str(kw.get("strict",False)).lower())
    EX.append((where,"chk_c2h %s %s %s\n  %s\n  %s"%(strip,o,MAC[mac],coqstr(markup),coqstr(html))))
UE={"None":"ue_default","transparent_unknown_nodes":"ue_transparent","raise_unknown_node":"ue_raise","use_html_macro":"ue_html_macro","escape_unknown_nodes":"ue_escape","preformat_unknown_nodes":"ue_preformat"}
def add_h2x(where, fn, html, out, kw):
    if MODE!="html": return
    ue=kw.get("unknown_emit"); ue="None" if ue is None else ue.n
    if ue not in UE: raise Skip("unknown_emit "+ue)
    st=(" "+str(kw.get("strict",False)).lower()) if fn=="html2creole" else ""
    EX.append((where,"chk (%s %s%s\n  %s)\n  %s"%(fn,UE[ue],st,coqstr(html),coqstr(out))))
def t_c2h(w, d):
    h=prepare(d["raw_html"]); 
    if d.get("strip_lines"): h=strip_lines_(h)
    add_c2h(w, prepare(d["raw_creole"]), h, "stripped" if d.get("strip_lines") else "tabs4", d)
def t_h2c(w,d):
    add_h2x(w,"html2creole",prepare(d["raw_html"]),prepare(d["raw_creole"]),d)
def t_h2x(w,fn,a,kw):
    d=bind(["x","html_string","strip_lines"],a,{("x" if k in("textile_string","markdown_string","rest_string") else k):v for k,v in kw.items()})
    h=prepare(d["html_string"])
    if d.get("strip_lines"): h=strip_lines_(h)
    add_h2x(w,fn,h,prepare(d["x"]),d)
def t_cross(w,d):
    t_c2h(w,dict(d,raw_creole=d["creole_string"],raw_html=d["html_string"]))
    t_h2c(w,dict(d,raw_creole=d["creole_string"],raw_html=d["html_string"]))
def conv(w,c,exp):
    _,fn,a,kw=c
    if fn=="creole2html":
        d=bind(["markup_string"],a,kw); d.setdefault("verbose",None); 
        add_c2h(w,d["markup_string"],exp,"exact",d)
    else:
        d=bind(["html_string"],a,kw); add_h2x(w,fn,d["html_string"],exp,d)
def call(w,c,env):
    f=ast.unparse(c.func)
    if not f.startswith("self."): return
    f=f[5:]
    known=("assert_creole2html","assert_html2creole","assert_html2creole2","cross_compare_creole","assert_html2textile","cross_compare_textile","assert_html2markdown","cross_compare_markdown","assert_html2rest","cross_compare_rest","cross_compare","assertEqual")
    if f not in known: return
    a,kw=args(c,env)
    kw.pop("debug",None)
    if f=="assert_creole2html": t_c2h(w,bind(["raw_creole","raw_html","strip_lines"],a,kw))
    elif f=="assert_html2creole": t_h2c(w,bind(["raw_creole","raw_html","strip_lines"],a,kw))
    elif f=="assert_html2creole2":
        d=bind(["creole","html"],a,kw); add_h2x(w,"html2creole",d["html"],d["creole"],d)
    elif f=="cross_compare_creole": t_cross(w,bind(["creole_string","html_string","strip_lines"],a,kw))
    elif f in("assert_html2textile","cross_compare_textile"): t_h2x(w,"html2textile",a,kw)
    elif f in("assert_html2markdown","cross_compare_markdown"): t_h2x(w,"html2markdown",a,kw)
    elif f in("assert_html2rest","cross_compare_rest"): t_h2x(w,"html2rest",a,kw)
    elif f=="cross_compare":
        d=bind(["html_string","creole_string","textile_string","rest_string","strip_lines"],a,kw)
        if d.get("creole_string"): t_cross(w,d)
        rest={k:v for k,v in d.items() if k in("html_string","strip_lines")}
        if d.get("textile_string"): t_h2x(w,"html2textile",[],dict(rest,x=d["textile_string"]))
        if d.get("rest_string"): t_h2x(w,"html2rest",[],dict(rest,x=d["rest_string"]))
    elif f=="assertEqual":
        x,y=a[:2]
        if isinstance(x,tuple): conv(w,x,y)
        elif isinstance(y,tuple): conv(w,y,x)
nskip=0
for fn in sorted(os.listdir(T)):
    if not fn.startswith("test_") or not fn.endswith(".py") or fn in("test_TODOs.py",): continue
    for cls in ast.parse(open(os.path.join(T,fn)).read()).body:
        if not isinstance(cls,ast.ClassDef): continue
        for fnode in cls.body:
            if not isinstance(fnode,ast.FunctionDef) or not fnode.name.startswith("test"): continue
            if any("PYGMENTS" in ast.unparse(d) for d in fnode.decorator_list): continue
            env={}
            for stx in fnode.body:
                w="%s:%d %s"%(fn,stx.lineno,fnode.name)
                try:
                    if isinstance(stx,ast.Assign) and isinstance(stx.targets[0],ast.Name): env[stx.targets[0].id]=ev(stx.value,env)
                    elif isinstance(stx,ast.Expr) and isinstance(stx.value,ast.Call): call(w,stx.value,env)
                except Skip as e:
                    nskip+=1; print("skip",w,e,file=sys.stderr)
print("(** Generated by tools/gen_conf.py from /repo/creole/tests. Do not edit.\n    Evaluation of the model on the expectations of the project's own unit tests. *)")
print("From Coq Require Import String List NArith ZArith Bool.")
print("From Verif Require Import Conf%s.\nImport ListNotations.\nOpen Scope N_scope.\n"%("Creole" if MODE=="creole" else "Html"))
for i,(w,e) in enumerate(EX):
    print("(* %s *)\nExample conf_%s_%03d : %s\n  = true.\nProof. vm_compute. reflexivity. Qed.\n"%(w,MODE,i+1,e))
print(len(EX),"examples",nskip,"skipped",file=sys.stderr)

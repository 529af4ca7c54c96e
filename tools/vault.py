#!/usr/bin/env python3
"""Run the model on the regression vault of the project.

Extracts simulate_of (M_Main.v) and the generator of M_Numpy.v to OCaml with machine floats
for the numbers, decodes the inputs and expected column sums of
/repo/soepy/test/resources/regression_vault.soepy.pkl (a data file; no project code is
loaded), and compares.  Needs a built /verif/rocq; works in a scratch directory.

usage: vault.py SCRATCH_DIR [case ...]      (a case takes a few minutes)
"""
import os, pickle, struct, subprocess, sys

out=sys.argv[1]
os.makedirs(out,exist_ok=True)

class Obj:
    def __init__(self,*a,**k): self.args=a; self.kw=k; self.state=None
    def __setstate__(self,s): self.state=s
    def __call__(self,*a,**k): return Obj2(self,a,k)
    def __repr__(self): return f"<{self.name} {getattr(self,'args',None)} {getattr(self,'state',None)}>"
def mk(mod,name):
    def new(cls,*a,**k): return object.__new__(cls)
    return type(name,(Obj,),{'name':mod+'.'+name,'__new__':new})
class U(pickle.Unpickler):
    def find_class(self,mod,name):
        if (mod,name)==('builtins','slice'): return slice
        return CL.setdefault((mod,name),mk(mod,name))
CL={}
d=U(open('/repo/soepy/test/resources/regression_vault.soepy.pkl','rb')).load()
nm=lambda o: getattr(o,'name','')
FM={'f8':'d','f4':'f','i8':'q','i4':'i','i1':'b','i2':'h'}
def dec(state):
    _,shape,dt,fortran,data=state
    kind=dt.args[0]
    if kind.startswith('O'): vals=list(data)
    else: vals=list(struct.unpack('<%d%s'%(len(data)//int(kind[1:]),FM[kind]),data))
    return shape,fortran,vals
def arr(o):
    if nm(o).endswith('_reconstruct_array'): return dec(o.args[2])
    return dec(o.state)
def index(o):
    cls=o.args[0].__name__; a=o.args[1]
    if cls=='Index': return [ (x,) for x in arr(a['data'])[2]]
    lv=[arr(l.args[1]['data'])[2] for l in a['levels']]
    cs=[arr(c)[2] for c in a['codes']]
    return list(zip(*[[l[i] for i in c] for l,c in zip(lv,cs)]))
def frame(df):
    mgr=df.state['_mgr']; blocks,axes=mgr.args if getattr(mgr,'args',None) else mgr.state
    cols=[c[0] for c in index(axes[0])]; rows=index(axes[1])
    assert len(blocks)==1
    shape,fo,v=arr(blocks[0].args[0])
    n=shape[1]
    if fo: mat=[[v[j*shape[0]+i] for j in range(n)] for i in range(shape[0])]
    else: mat=[v[i*n:(i+1)*n] for i in range(shape[0])]
    return cols,rows,mat   # mat[col][row]
def series(s):
    st=s.state['_mgr'].state
    return [x[0] for x in index(st[0][0])],arr(st[1][0])[2]
def fl(x):
    x=float(x); return '(%s)'%x.hex() if x==x else 'nan'
def it(x): return '(%d)'%x
def lst(f,l): return '['+';'.join(f(x) for x in l)+']'
S=lambda s:'"%s"'%s
def emit(k):
    t=d[k]; spec=t[0]
    heap=[None]
    def val(v):
        if isinstance(v,bool): return 'VBool '+str(v).lower()
        if isinstance(v,int): return 'VInt '+it(v)
        if isinstance(v,float): return 'VNum '+fl(v)
        if isinstance(v,str): return 'VStr '+S(v)
        if isinstance(v,list):
            if all(isinstance(x,int) for x in v): return 'VInts '+lst(it,v)
            return 'VNums '+lst(fl,v)
        if isinstance(v,dict):
            heap.append(None); i=len(heap)-1
            heap[i]=dic(v); return 'VRef %d'%i
        sh,_,vals=arr(v)
        if len(sh)==1: return 'VNums '+lst(fl,vals)
        return 'VMat '+lst(lambda r:lst(fl,r),[vals[i*sh[1]:(i+1)*sh[1]] for i in range(sh[0])])
    def dic(v): return lst(lambda kv:'(%s,%s)'%(S(kv[0]),val(kv[1])),list(v.items()))
    heap[0]=dic(spec)
    cols,rows,mat=frame(t[1]); assert cols==['value']
    pd={}
    for r,x in zip(rows,mat[0]): pd.setdefault(r[0],[]).append((r[1],x))
    params=lst(lambda kv:'(%s,%s)'%(S(kv[0]),lst(lambda p:'(%s,%s)'%(S(p[0]),fl(p[1])),kv[1])),list(pd.items()))
    def keyed(i,pos,name):
        c,r,m=frame(t[i]); assert len(c)==1
        names=t[i].state['_mgr'].args[1][1].args[1].get('names') if getattr(t[i].state['_mgr'],'args',None) else t[i].state['_mgr'].state[1][1].args[1].get('names')
        assert names is None or names[pos]==name,(names,name)
        return [(x[pos],y) for x,y in zip(r,m[0])]
    kz=lambda l:lst(lambda p:'(%d,%s)'%(p[0],fl(p[1])),l)
    c,r,m=frame(t[2]); assert [x[0] for x in r]==[0,1,2]
    educ=lst(fl,m[0])
    c,r,m=frame(t[4])
    part=lst(lambda row:lst(fl,row),list(zip(*m)))
    c,r,m=frame(t[7])
    child=lst(lambda p:'(%d,%s)'%(p[0][0],lst(fl,p[1])),list(zip(r,zip(*m))))
    files='{xf_educ=%s; xf_child_age=%s; xf_partner_present=%s; xf_exp_pt=%s; xf_exp_ft=%s; xf_child=%s; xf_arrival=%s; xf_separation=%s}'%(
      educ,kz(keyed(3,0,'educ_level')),part,kz(keyed(5,0,'educ_level')),kz(keyed(6,0,'educ_level')),child,kz(keyed(8,0,'period')),kz(keyed(9,0,'period')))
    def ser(i):
        a,b=series(t[i]); return lst(lambda p:'(%s,%s)'%(S(p[0]),fl(p[1])),list(zip(a,b)))
    return '{heap=%s; params=%s; files=%s; exp_biased=%s; exp_unbiased=%s}'%('['+';\n'.join(heap)+']',params,files,ser(10),ser(11))
with open(os.path.join(out,'cases.ml'),'w') as f:
    f.write('open Model\ntype case={heap: float heap; params: float params_dict; files: float exog_files; exp_biased:(string*float) list; exp_unbiased:(string*float) list}\n')
    for k in d: f.write('let case%d = %s\n'%(k,emit(k)))
    f.write('let all = [|%s|]\n'%';'.join('case%d'%k for k in d))
EXT = r"""From Coq Require Import Extraction ExtrOcamlBasic ExtrOcamlNatInt ExtrOcamlZInt ExtrOcamlNativeString.
From Coq Require Import ZArith.
From Verif Require Import Base Num M_Params M_Exog M_Sim M_Spec M_Main M_Numpy.
Extraction Inline bind hbind.
Extract Constant Z.land => "(land)". Extract Constant Z.lor => "(lor)". Extract Constant Z.lxor => "(lxor)".
Extract Constant Z.shiftr => "(asr)". Extract Constant Z.shiftl => "(lsl)". Extract Constant Z.odd => "(fun x -> x land 1 = 1)".
Extraction "model.ml" simulate_of numpy_rng mt_source Build_Num mkFiles.
"""
MAIN = r"""open Model
let fnum = { nofZ = float_of_int; nadd = (+.); nsub = (-.); nmul = ( *. ); ndiv = (/.);
  nleb = (fun (x:float) y -> x <= y); nltb = (fun (x:float) y -> x < y); nexp = exp; nln = log; npow = ( ** ); nfloor = (fun x -> int_of_float (floor x)) }
let rng = numpy_rng fnum (mt_source fnum) sqrt
let cols = ["Identifier",(fun r -> float r.o_state.a_id);"Period",(fun r -> float r.o_state.a_period);
 "Education_Level",(fun r -> float r.o_state.a_educ);"Lagged_Choice",(fun r -> float r.o_state.a_lagged);
 "Experience_Part_Time",(fun r -> float r.o_state.a_exp_pt);"Experience_Full_Time",(fun r -> float r.o_state.a_exp_ft);
 "Experience_Stock",(fun r -> r.o_state.a_stock);"Type",(fun r -> float r.o_state.a_type);
 "Age_Youngest_Child",(fun r -> float r.o_state.a_age);"Partner_Indicator",(fun r -> float r.o_state.a_partner);
 "Choice",(fun r -> float r.o_choice);"Wage_Observed",(fun r -> match r.o_wage with Some w -> w | None -> 0.);
 "Male_Wages",(fun r -> match r.o_full with Some f -> f.f_male_wage | None -> nan)]
 @ List.concat (List.mapi (fun i c -> let g sel r = match r.o_full with Some f -> List.nth (sel f) i | None -> nan in
    ["Non_Consumption_Utility_"^c,g (fun f->f.f_non_cons);"Flow_Utility_"^c,g (fun f->f.f_flow);
     "Continuation_Value_"^c,g (fun f->f.f_cont);"Value_Function_"^c,g (fun f->f.f_value)]) ["N";"P";"F"])
let () =
  let ids = if Array.length Sys.argv > 1 then List.tl (Array.to_list Sys.argv) |> List.map int_of_string else List.init 100 (fun i->i) in
  List.iter (fun k ->
   let c = Cases.all.(k) in
   List.iter (fun (biased, expd) ->
    let t0 = Sys.time () in
    let _, r = simulate_of fnum rng (fun _ -> failwith "hermite") (sqrt 2.) (sqrt (4. *. atan 1.)) (ParamsFrame c.Cases.params) (SpecDict 0) c.Cases.files biased false (rng.rng_seed 0) c.Cases.heap in
    (match r with
     | Err e -> Printf.printf "case %d biased=%b ERR %s\n%!" k biased (match e with ValueError m -> m | KeyError m -> "key "^m | IndexError -> "index" | TypeError -> "type" | _ -> "?")
     | Ok (data, _) ->
      let worst = ref 0. and wn = ref "" and bad = ref [] in
      List.iter (fun (n,f) ->
        let s = List.fold_left (fun a r -> a +. f r) 0. data in
        let e = List.assoc n expd in
        let rel = abs_float (s -. e) /. (max 1e-9 (abs_float e)) in
        if rel > !worst || rel <> rel then (worst := rel; wn := n);
        if rel > 1e-4 then bad := Printf.sprintf "%s %.6g/%.6g" n s e :: !bad) cols;
      Printf.printf "case %d biased=%b rows %d worst %s %.2e bad[%s] %.1fs\n%!" k biased (List.length data) !wn !worst (String.concat "; " !bad) (Sys.time () -. t0)))
   [true, c.Cases.exp_biased; false, c.Cases.exp_unbiased]) ids
"""

for name,text in (('Ext.v',EXT),('main.ml',MAIN)):
    open(os.path.join(out,name),'w').write(text)
theories=os.path.join(os.path.dirname(os.path.abspath(__file__)),'..','rocq','theories')
def run(*c): subprocess.run(c,cwd=out,check=True)
run('coqc','-R',theories,'Verif','Ext.v')
os.remove(os.path.join(out,'model.mli'))
run('ocamlfind','ocamlopt','-w','-a','-O3','-unsafe','model.ml','cases.ml','main.ml','-o','run')
run('bash','-c','ulimit -s unlimited; exec ./run '+' '.join(sys.argv[2:]))

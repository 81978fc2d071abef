#!/usr/bin/env python3
"""Differential test of the model: extract the Coq model to OCaml with binary64 numbers for the reals, in a scratch
directory, and compare it with the reference values of /repo/tests/data (the project's own tests). Nothing of /repo is run.

usage: golden.py [SCRATCH]   (needs rocq/theories compiled and ocamlfind)"""
import csv, re, ast, random, os
import json, gzip, subprocess, sys, math
OUT = sys.argv[1] if len(sys.argv) > 1 else '/tmp/golden'
os.makedirs(OUT, exist_ok=True); os.chdir(OUT)
EXT = r"""From Coq Require Import Reals Extraction ExtrOcamlBasic ExtrOcamlNatInt ExtrOcamlNativeString.
From Verif Require Import ArgMin Framework M_ab06 M_ab20 M_aga16 M_as16 M_as96 M_asb14 M_ask14 M_ba18 M_ba19 M_bj08 M_bssa14 M_c03 M_cb14 M_cy14 M_dbc14 M_ga11 M_i14 M_k17 M_ks06 M_pjs17 M_pr23 M_pr24 M_pzt11 M_tp05 M_hkr14.
Extract Inlined Constant RbaseSymbolsImpl.R => "float".
Extract Inlined Constant RbaseSymbolsImpl.R0 => "0.0".
Extract Inlined Constant RbaseSymbolsImpl.R1 => "1.0".
Extract Inlined Constant RbaseSymbolsImpl.Rplus => "(+.)".
Extract Inlined Constant RbaseSymbolsImpl.Rmult => "( *. )".
Extract Inlined Constant RbaseSymbolsImpl.Ropp => "(fun x -> -. x)".
Extract Inlined Constant RinvImpl.Rinv => "(fun x -> 1.0 /. x)".
Extract Inlined Constant Rdefinitions.Rdiv => "(/.)".
Extract Inlined Constant Rdefinitions.Rminus => "(-.)".
Extract Inductive positive => "float" [ "xI_" "xO_" "1." ]
 "(fun f1 f2 f3 p -> if p <= 1. then f3 () else if Float.rem p 2. = 0. then f2 (p /. 2.) else f1 ((p -. 1.) /. 2.))".
Extract Inductive Z => "float" [ "0." "" "(fun p -> -. p)" ] "(fun f1 f2 f3 z -> if z = 0. then f1 () else if z > 0. then f2 z else f3 (-. z))".
Extract Inlined Constant Rdefinitions.IZR => "(fun (z:float) -> z)".
Extract Inlined Constant Z.pow_pos => "( ** )".
Extract Inlined Constant Z.mul => "( *. )".
Extract Inlined Constant Z.add => "( +. )".
Extract Inlined Constant Z.sub => "( -. )".
Extract Inlined Constant Z.opp => "(fun x -> -. x)".
Extract Inlined Constant Pos.mul => "( *. )".
Extract Inlined Constant Pos.add => "( +. )".
Extract Inlined Constant Z.of_nat => "float_of_int".
Extract Inlined Constant Z.to_nat => "(fun z -> max 0 (int_of_float z))".
Extract Inlined Constant Pos.to_nat => "int_of_float".
Extract Inlined Constant Z.eqb => "(fun (x:float) y -> x = y)".
Extract Inlined Constant Z.leb => "(fun (x:float) y -> x <= y)".
Extract Inlined Constant Z.ltb => "(fun (x:float) y -> x < y)".
Extract Inlined Constant Z.abs => "abs_float".

Extract Inlined Constant Rlt_dec => "(fun (x:float) y -> x < y)".
Extract Inlined Constant Rle_dec => "(fun (x:float) y -> x <= y)".
Extract Inlined Constant Req_EM_T => "(fun (x:float) y -> x = y)".
Extract Inlined Constant Rtrigo_def.exp => "exp".
Extract Inlined Constant Rpower.ln => "log".
Extract Inlined Constant Rpower.Rpower => "( ** )".
Extract Inlined Constant Rtrigo_def.cos => "cos".
Extract Inlined Constant Rtrigo_def.sin => "sin".
Extract Inlined Constant Rtrigo_def.cosh => "cosh".
Extract Inlined Constant Rtrigo_def.tanh => "tanh".
Extract Inlined Constant Rtrigo1.PI => "3.14159265358979323846".
Extract Inlined Constant R_sqrt.sqrt => "sqrt".
Extract Inlined Constant Ratan.atan => "atan".
Extract Inlined Constant Rbasic_fun.Rabs => "abs_float".
Extract Inlined Constant Rbasic_fun.Rmin => "(fun (x:float) y -> if x <= y then x else y)".
Extract Inlined Constant Rbasic_fun.Rmax => "(fun (x:float) y -> if x <= y then y else x)".
Set Extraction Output Directory ".".
Extraction "model.ml" flt g_spec_accels g_ln_stds g_interp_accels g_interp_ln_stds g_pga g_pgv g_pgd g_ln_std_pga g_ln_std_pgv g_periods
 ask14 bssa14 cb14 cy14 i14 ab06 c03 tp05 pzt11 asb14 aga16 cop14 dbc14 ga11 ga11_ratio ga11_ln_std ga11_interp_ratio as96 as96_interp aread ks06 ks06_duration ks06_std_err as16 as16_duration as16_std_err bj08_correls bj08_cms k17_cmsv ba19 ba19_p_freqs ba19_p_eas ba19_p_ln_std pr23 pr23_duration pr23_plus pr23_minus pr23_for_energy pr24 pr24_duration pr24_plus pr24_minus pr24_d5x_median pr24_d5x_sigma pr24_for_energy pjs17_cor ba18_corr ab20 cb14_calc_depth_2_5 cy14_calc_depth_1_0 cy14_calc_depth_tor ask14_calc_depth_1_0 ask14_calc_depth_tor ask14_calc_width.
"""
open('Ext.v', 'w').write(EXT)
subprocess.run('coqc -Q /verif/rocq/theories Verif Ext.v', shell=True, check=True, capture_output=True)
for f in ('model.mli',):
    if os.path.exists(f): os.remove(f)
src = open('model.ml').read().replace('failwith "AXIOM TO BE REALIZED"', '(fun _ -> assert false)')
pat, n = re.compile(r'\(x([IO])_\s+(\d+)\.\)'), 1
while n:
    src, n = pat.subn(lambda m: '%d.' % (2 * int(m[2]) + (m[1] == 'I')), src)
open('model.ml', 'w').write("let xI_ p = 2. *. p +. 1.\nlet xO_ p = 2. *. p\n" + src.replace('((fun (z:float) -> z) ', '('))
subprocess.run('ulimit -s unlimited; ocamlfind ocamlopt -w -a -c model.ml', shell=True, check=True, capture_output=True, executable='/bin/bash')

def load(f):
    f='/repo/tests/data/'+f
    return json.load(gzip.open(f,'rt') if f.endswith('gz') else open(f))
def num(x):
    x=float(x)
    if math.isnan(x): return 'NaN'
    if math.isinf(x): return 'PInf' if x>0 else 'NInf'
    return '(Fin (%r))'%x
def val(v):
    if v is None: return 'PNone'
    if isinstance(v,bool): return '(PBool %s)'%str(v).lower()
    if isinstance(v,str): return '(PStr "%s")'%v
    return '(PNum %s)'%num(v)
def d(p): return '['+'; '.join('("%s", %s)'%(k,val(v)) for k,v in p.items())+']'
def fl(l): return '['+'; '.join(num(x) for x in l)+']'
PRE='''open Model
let s = function Fin x -> Printf.sprintf "%.17g" x | PInf -> "inf" | NInf -> "-inf" | NaN -> "nan"
let exn_s = function EValue -> "EValue" | EKey k -> "EKey "^k | EType -> "EType" | ENotImpl -> "ENotImpl" | EWarning w -> "EWarning "^w | EIndex -> "EIndex" | EAttr -> "EAttr" | EAssert -> "EAssert" | _ -> "exn"
let show f = function (_, Ok x) -> print_endline (f x) | (_, Raise e) -> print_endline ("!"^exn_s e)
let ls l = String.concat " " (List.map s l)
let via m f = match m with (_, Ok x) -> f x | (_, Raise e) -> ([], Raise e)
'''
def run(lines,name='drv'):
    open(name+'.ml','w').write(PRE+'\n'.join('let () = '+l for l in lines)+'\n')
    subprocess.run('ulimit -s unlimited; ocamlfind ocamlopt -w -a model.cmx %s.ml -o %s 2>/dev/null'%(name,name),shell=True,check=True,executable='/bin/bash')
    o=subprocess.run('./'+name,capture_output=True,text=True)
    if o.returncode: print(o.stderr[-500:])
    out=[]
    for l in o.stdout.splitlines():
        out.append(l if l.startswith('!') else [float(x) for x in l.split()])
    return out
def cmp(tag,got,exp,rtol,atol):
    """Largest |got - expected| / (atol + rtol |expected|), as in numpy's assert_allclose: at most 1."""
    if isinstance(got,str) or len(got)!=len(exp): print('ERR',tag,got); return 9
    w=max(abs(a-b)/(atol+rtol*abs(b)) if a==a else 9 for a,b in zip(got,exp) if b is not None)
    if w>1: print('BAD',tag,'%.3g'%w)
    return w
L=[];J=[]
def add(tag,line,exp,rtol=1e-2,atol=0): L.append(line); J.append((tag,exp,rtol,atol))
T=load('ngaw2_tests.json.gz')
for i,t in enumerate(T):
    for k,f in {'ASK14':'ask14','BSSA14':'bssa14','CB14':'cb14','CY14':'cy14','I14':'i14'}.items():
        r=t['results'][k]; m='(%s %s)'%(f,d(t['params']))
        add((f,i,'sa'),'show ls (via %s (fun m -> g_interp_accels m %s))'%(m,fl(r['periods'])),r['spec_accels'])
        add((f,i,'std'),'show ls (via %s (fun m -> g_interp_ln_stds m %s))'%(m,fl(r['periods'])),r['ln_stds'])
        for key in ('pga','pgv','ln_std_pga','ln_std_pgv'):
            if r.get(key) is not None: add((f,i,key),'show s (via %s g_%s)'%(m,key),[r[key]])
for i,t in enumerate(load('asb14_tests.json.gz')):
    for dist,r in t['results']:
        p=dict(t['params']); p[dist]=p.pop('dist'); m='(asb14 %s)'%d(p)
        add(('asb14',dist,i,'sa'),'show ls (via %s (fun m -> g_interp_accels m %s))'%(m,fl(r['periods'])),r['spec_accels'])
        add(('asb14',dist,i,'pga'),'show s (via %s g_pga)'%m,[r['pga']]); add(('asb14',dist,i,'pgv'),'show s (via %s g_pgv)'%m,[r['pgv']])
for n,f in (('aga16','abrahamson_gregor_addo_2016.json.gz'),('cop14','coppersmith_bommer_2014.json.gz')):
    for i,t in enumerate(load(f)):
        m='(%s %s %s (Fin 1.))'%(n,d(t['params']),'' if n=='cop14' else 'AdjNone'); r=t['results']
        add((n,i,'sa'),'show ls (via %s g_spec_accels)'%m,r['spec_accels'],2e-2); add((n,i,'std'),'show ls (via %s g_ln_stds)'%m,r['ln_stds'],2e-2)
        if n=='aga16': add((n,i,'pga'),'show s (via %s g_pga)'%m,[r['pga']],2e-2); add((n,i,'lspga'),'show s (via %s g_ln_std_pga)'%m,[r['ln_std_pga']],2e-2)
G=9.80665
for i,t in enumerate(load('dbc14_tests.json.gz')):
    r=t['results']; m='(dbc14 %s)'%d(t['params'])
    add(('dbc14',i,'sa'),'show ls (via %s (fun m -> g_interp_accels m %s))'%(m,fl(r['periods'])),[x/G for x in r['spec_accels']])
    add(('dbc14',i,'pga'),'show s (via %s g_pga)'%m,[r['pga']/G]); add(('dbc14',i,'pgv'),'show s (via %s g_pgv)'%m,[r['pgv']*100])
src=open('/repo/tests/test_derras_bard_cotton_2014.py').read(); e=ast.literal_eval(re.search(r'expected = (\[.*?\])',src,re.S)[1])
add(('dbc14','ln_stds'),'show ls (via (dbc14 %s) (fun m -> match m.g_ln_std with Some l -> ([], Ok l) | None -> ([], Ok [])))'%d(dict(dist_jb=10,mag=6,v_s30=600,depth_hyp=10,mechanism='SS')),[x*math.log(10) for x in e])
for i,t in enumerate(load('gulerce_abrahamson_2011.json.gz')):
    m='(ga11 %s)'%d(t['params'])
    add(('ga11',i,'ratio'),'show ls (via %s (fun m -> ([],Ok (ga11_ratio m))))'%m,t['output']['ratio'],5e-3,1e-3); add(('ga11',i,'std'),'show ls (via %s (fun m -> ([],Ok (ga11_ln_std m))))'%m,t['output']['ln_std'],5e-3,1e-3)
for i,t in enumerate(load('as96.json')):
    m='(as96 %s)'%d(t['scenario'])
    for k in range(2):
        add(('as96',i,k),'show ls (via %s (fun m -> ([], Ok (List.nth (fst (as96_interp [] m (ADup %s) (Some %s))) %d))))'%(m,fl(t['nias']),fl(t['stds']),k),t['durs'][k],1e-2,1e-4)
B=load('baker_jayaram_2008.json'); md=B['model']; lg=lambda l:[math.log(x) for x in l]
for i,c in enumerate(B['cases_correl']): add(('bj08',i,'correl'),'print_endline (ls (bj08_correls %s %s))'%(fl(c['periods']),num(c['period_cond'])),c['correls'],5e-3,5e-3)
for i,c in enumerate(B['cases_cms']):
    x='bj08_cms %s %s %s %s %s'%(fl(md['periods']),fl(lg(md['psas'])),fl(md['ln_stds']),num(c['period_cond']),num(math.log(c['psa_cond'])))
    add(('bj08',i,'cms'),'(match %s with Ok (a,_) -> print_endline (ls (List.map fexp a)) | _ -> print_endline "!x")'%x,c['psas_cms'],5e-4,1e-4)
    add(('bj08',i,'cmsstd'),'(match %s with Ok (_,b) -> print_endline (ls b) | _ -> print_endline "!x")'%x,c['ln_stds_cms'],5e-4,1e-4)
K=load('kishida_2017.json'); md=K['model']
for i,c in enumerate(K['cases']):
    mask='['+';'.join('false' if p in c['periods_cond'] else 'true' for p in md['periods'])+']'
    x='k17_cmsv inv_ %s %s %s %s (Some %s)'%(fl(md['periods']),fl(lg(md['psas'])),fl(md['ln_stds']),fl(lg(md['psas_target'])),mask)
    add(('k17',i,'cms'),'(match %s with Ok (a,_) -> print_endline (ls (List.map fexp a)) | _ -> print_endline "!x")'%x,c['psas_cmsv'],5e-4,1e-4)
    add(('k17',i,'std'),'(match %s with Ok (_,b) -> print_endline (ls b) | _ -> print_endline "!x")'%x,c['ln_stds_cmsv'],5e-4,1e-4)
for f in ('500','1000'):
    rows=list(csv.reader(open('/repo/tests/data/BA19-EAS-Figure8-%s.csv'%f)))
    for i in range(len(rows[0])-1):
        p={r[0]:(r[i+1] if r[0]=='mechanism' else float(r[i+1])) for r in rows[:6]}
        add(('ba19',f,i),'show ls (via (ba19 %s) (fun m -> ([], Ok (ba19_p_eas m))))'%d(p),[float(r[i+1])/(100*G) for r in rows[8:]],5e-3)
P=load('pinilla_ramos_et_al_2023.json.gz')
tup='(fun ((a,b),c) -> s a^" "^s b^" "^s c)'
g1=lambda x:x[0] if isinstance(x,list) else x
for i,c in enumerate(P['test_cases']):
    q=c['inputs']; e=c['expected']
    if isinstance(q['mag'],list): continue
    m='(pr23 %s)'%d(dict(mag=q['mag'],dist_rup=q['rrup'],v_s30=q['vs30']))
    E=[g1(e['duration']),g1(e['duration_plus_sigma']),g1(e['duration_minus_sigma'])]
    if q['energy']==0.75: add(('pr23',i),'show (fun m -> s (pr23_duration m)^" "^s (pr23_plus m)^" "^s (pr23_minus m)) %s'%m,E,1e-6)
    add(('pr23e',i),'show %s (via %s (fun m -> pr23_for_energy m %s))'%(tup,m,num(q['energy'])),E,1e-6)
rows=list(csv.DictReader(gzip.open('/repo/tests/data/pinilla_ramos_et_al_2024.csv.gz','rt')))
random.seed(1)
for r in random.sample(rows,min(400,len(rows))):
    m='(pr24 %s)'%d(dict(mag=float(r['mag']),dist_rup=float(r['dist_rup']),v_s30=float(r['v_s30']),region=r['region'],event_type=r['event_type']))
    add(('pr24',r['event_type'],r['region'],r['energy_threshold']),'show s (via %s (fun m -> pr24_d5x_median m "%s"))'%(m,r['energy_threshold']),[float(r['median'])],1e-9)
    add(('pr24s',r['event_type'],r['region'],r['energy_threshold']),'show s (via %s (fun m -> pr24_d5x_sigma m "%s"))'%(m,r['energy_threshold']),[float(r['sigma'])],1e-9)
add('cb1','show s (cb14_calc_depth_2_5 (Fin 600.) (PStr "japan") PNone)',[0.1844427],1e-6)
add('cb2','show s (cb14_calc_depth_2_5 (Fin 600.) (PStr "california") PNone)',[0.7952589],1e-6)
add('cy1','print_endline (s (cy14_calc_depth_1_0 (Fin 600.) (PStr "california")))',[0.1259],1e-2)
add('cy2','print_endline (s (cy14_calc_depth_1_0 (Fin 600.) (PStr "japan")))',[0.0331],1e-2)
add('cy3','print_endline (s (cy14_calc_depth_tor (Fin 6.) (PStr "SS")))',[2.2587685],1e-6)
add('cy4','print_endline (s (cy14_calc_depth_tor (Fin 6.) (PStr "RS")))',[6.3447262],1e-6)
add('as1','print_endline (s (ask14_calc_depth_1_0 (Fin 600.) (PStr "global")))',[0.1424470],1e-5)
add('as2','print_endline (s (ask14_calc_depth_tor (Fin 6.)))',[4.2545455],1e-6)
add('as3','print_endline (s (ask14_calc_width (Fin 6.) (Fin 50.)))',[8.9125094],1e-6)
gl_pre='''
let inv_ (a : mat) = let n = a.mr in let f = Array.init n (fun i -> Array.init (2*n) (fun j -> if j < n then (match a.me i j with Fin x -> x | _ -> nan) else if j - n = i then 1. else 0.)) in
 for c = 0 to n-1 do let p = ref c in for r = c to n-1 do if abs_float f.(r).(c) > abs_float f.(!p).(c) then p := r done; let t = f.(c) in f.(c) <- f.(!p); f.(!p) <- t;
  let q = f.(c).(c) in for j = 0 to 2*n-1 do f.(c).(j) <- f.(c).(j) /. q done; for r = 0 to n-1 do if r <> c then (let k = f.(r).(c) in for j = 0 to 2*n-1 do f.(r).(j) <- f.(r).(j) -. k *. f.(c).(j) done) done done;
 Some { mr = n; mc = n; me = fun i j -> Fin f.(i).(n+j) }
'''
PRE+=gl_pre
O=run(L); W={}
for (t,e,rt,at),o in zip(J,O):
    w=cmp(t,o,e,rt,at); k=t if isinstance(t,str) else t[0]; c,m=W.get(k,(0,0)); W[k]=(c+len(e),max(m,w))
print(len(J),'comparisons; per model: numbers compared, worst error over the tolerance of the project test')
for k,(c,w) in W.items(): print(k,c,'%.2g'%w)

#!/usr/bin/env python3
"""Generates rocq/theories/RepoTests.v: the tests of /repo/TestingFramework/tests run in the model on the baselines of the repository."""
import os,math,struct
T='/repo/TestingFramework/tests/'
def lit(s):
    # a Coq expression for a list of ascii
    parts=[]; cur=''
    for c in s:
        if c=='\n':
            parts.append('$"%s"'%cur.replace('"','""')); parts.append('[nl]'); cur=''
        else: cur+=c
    if cur: parts.append('$"%s"'%cur.replace('"','""'))
    parts=[p for p in parts if p!='$""']
    return '('+' ++ '.join(parts)+')' if parts else '[]'
def sf(x,single=False):
    if single: x=struct.unpack('f',struct.pack('f',x))[0]; prec,emin=24,-149
    else: prec,emin=53,-1074
    m,e=math.frexp(x); m=int(m*2**prec); e-=prec
    return '(S754_finite false %d (%d))'%(m,e)
names=['ArgumentsTest%d'%i for i in range(1,9)]+['OutputTest1','OutputTest2','Test1','Test2','Test3','Test4']
o=[]
w=o.append
w('''(** The tests of /repo/TestingFramework/tests run in the model: each program is the [Test] function of one of tfRegressionTest*.cxx, the baselines are the files
    of tests/xml and tests/data, the command lines those of tests/CMakeLists.txt, and the value returned is the one the repository expects.
    This is a check of the model, not a proof of a property.  Generated by tools/gen_repotests.py. *)
From Coq Require Import Floats.SpecFloat.
From Verif Require Import Base Str Dec PathModel MeasModel XmlModel ReadModel RegModel ArgFacts ArgProps RegSpec RegMain RegProps ItkSim ApiModel ApiSpec NumModel ConfProps.
Local Open Scope Z_scope.
''')
for n in names:
    w('(** tests/xml/tfRegressionTest%s.xml *)'%n)
    w('Definition xml_%s : str := %s.'%(n,lit(open(T+'xml/tfRegressionTest%s.xml'%n).read())))
w('(** tests/data/plain.txt *)')
w('Definition plain_txt : str := %s.'%lit(open(T+'data/plain.txt').read()))
w('''
(** the source directory: data is readable, the images hold any bytes *)
Definition repo_files : store := fun k =>
  if eqs k ($"/r/data") then Some (FDir true true true) else
  if eqs k ($"/r/data/plain.txt") then Some (FFile true true plain_txt) else
  if eqs k ($"/r/data/vm_head_coronal.png") then Some (FFile true true ($"png")) else
  if eqs k ($"/r/data/vm_head_coronal.jpg") then Some (FFile true true ($"jpg")) else''')
for n in names:
    w('  if eqs k ($"/r/xml/tfRegressionTest%s.xml") then Some (FFile true true xml_%s) else'%(n,n))
w('  None.')
w('''Definition repo_env : env :=
  Env true false (Some (fun _ _ => 0)) std_io (fun _ => ([], false)) (fun p => p) (fun _ => true) ($"host") ($"now").
Definition say (p : call) (k : aprog) : aprog := ACall p (fun _ => k).
(** -I with the baseline, then the rest *)
Definition with_baseline (n : str) (rest : list str) : list str := n :: $"-I" :: ($"/r/xml/" ++ n ++ $".xml") :: rest.
Definition returned (test : list str -> aprog) (argv : list str) (s : rst) : res Z := snd (api_Main repo_env test argv s).
''')
tests={
'Test1':('0',[],'Test1'),
'Test2':('0',['TextString ($"string text value") ($"TextString")','TextPlain %s ($"TextPlain")'%lit("this is\n some plain text\n"),'NumericInteger 0 ($"NumericInteger") true','NumericFloat %s ($"NumericFloat") true'%sf(1.1,True),
  'TOL %s'%sf(2.0**-46),'NumericDouble %s ($"NumericDouble") true'%sf(20.0/9.0),'NumericBoolean true ($"NumericBoolean") true'],'Test2'),
}
t3c=['TextString ($"string text value") ($"TextString")','TextPlain %s ($"TextPlain")'%lit("this is\n some plain text\n"),'NumericInteger 0 ($"NumericInteger") true','NumericFloat %s ($"NumericFloat") true'%sf(1.1,True),'NumericDouble %s ($"NumericDouble") true'%sf(30.0/9.0),'NumericBoolean true ($"NumericBoolean") true']
t3r=['TextString ($"difference string text value") ($"TextString")','TextPlain %s ($"TextPlain")'%lit("this is different\n some plain text\n"),'NumericInteger 1 ($"NumericInteger") true','NumericFloat %s ($"NumericFloat") true'%sf(2.2,True),'NumericDouble %s ($"NumericDouble") true'%sf(40.0/9.0),'NumericBoolean false ($"NumericBoolean") true']
def body(l,ind='  '):
    s=''
    for c in l:
        if c.startswith('TOL '): s+=ind+'ASetRelativeTolerance %s (\n'%c[4:]
        else: s+=ind+'say (%s) (\n'%c
    return s+ind+'AReturn 0'+')'*len(l)
for n in ['Test1','Test2']:
    w('(** tests/tfRegressionTest%s.cxx *)'%n)
    w('Definition test_%s (args : list str) : aprog :=\n%s.'%(n,body(tests[n][1])))
w('(** tests/tfRegressionTestTest3.cxx: the measurements depend on the mode *)')
w('Definition test_Test3 (args : list str) : aprog := ALook (fun v => if v_compare v then\n%s\n  else\n%s).'%(body(t3c,'    '),body(t3r,'    ')))
w('(** tests/tfRegressionTestTest4.cxx: the search path is set in the constructor *)')
w('Definition test_Test4 (args : list str) : aprog :=\n%s.'%body(['FileTextPlain ($"/r/data/plain.txt") ($"FileTextPlain")']))
w('(** tests/tfRegressionTestOutputTest1.cxx *)')
w('Definition test_OutputTest1 (args : list str) : aprog :=\n%s.'%body(t3c))
w('(** tests/tfRegressionTestOutputTest2.cxx *)')
w('Definition test_OutputTest2 (args : list str) : aprog :=\n%s.'%body(['FileTextPlain ($"/r/data/plain.txt") ($"FileTextPlain")','FileImagePNG ($"/r/data/vm_head_coronal.png") ($"FileImagePNG")','FileImageJPEG ($"/r/data/vm_head_coronal.jpg") ($"FileImageJPEG")']))
w('''(** tests/tfRegressionTestArgumentsTest.cxx *)
Fixpoint each_argument (i : Z) (args : list str) : aprog :=
  match args with
  | [] => AReturn 0
  | a :: args => say (TextString a ($"Argument " ++ print_int i)) (each_argument (i + 1) args)
  end.
Definition test_ArgumentsTest (args : list str) : aprog :=
  ALook (fun v => say (NumericInteger (v_expected v) ($"ExpectedReturn") true) (each_argument 0 args)).
''')
exp={'Test1':0,'Test2':0,'Test3':6,'OutputTest1':6,'OutputTest2':3}
for n,r in exp.items():
    w('Example repo_%s : returned test_%s (with_baseline ($"tfRegressionTest%s") []) (new_test repo_files) = Ok %d.\nProof. vm_compute. reflexivity. Qed.'%(n,n,n,r))
w('Example repo_Test4 : returned test_Test4 (with_baseline ($"tfRegressionTestTest4") []) (configured repo_files [] [] [$"/r/data"] 0) = Ok 0.\nProof. vm_compute. reflexivity. Qed.')
args={1:[],2:['one'],3:['one','two'],4:['-R','1'],5:['-R','1','one'],6:['-R','1','one','two'],7:['one','-R','1','three']}
def sl(l): return '['+'; '.join('$"%s"'%x for x in l)+']'
# -R 1: Test returns 0, which is not the expected value 1, so Main returns 0
for i,a in args.items():
    w('Example repo_ArgumentsTest%d : returned test_ArgumentsTest (%s) (new_test repo_files) = Ok 0.\nProof. vm_compute. reflexivity. Qed.'%(i,sl(['tfRegressionTestArgumentsTest','-I','/r/xml/tfRegressionTestArgumentsTest%d.xml'%i]+a)))
w('Example repo_ArgumentsTest8 : returned test_ArgumentsTest (%s) (new_test repo_files) = Ok 0.\nProof. vm_compute. reflexivity. Qed.'%sl(['tfRegressionTestArgumentsTest','-P','/r/data','-I','/r/xml/tfRegressionTestArgumentsTest8.xml','one','two']))
# all measurements actually match: nothing written
w('''(** in these the comparison finds nothing to report *)
Definition reported (test : list str -> aprog) (argv : list str) : str * Z :=
  let s := fst (api_Main repo_env test argv (new_test repo_files)) in (s_stdout s, s_unmatched s).''')
for i,a in args.items():
    w('Example repo_ArgumentsTest%d_quiet : reported test_ArgumentsTest (%s) = ([], 0).\nProof. vm_compute. reflexivity. Qed.'%(i,sl(['tfRegressionTestArgumentsTest','-I','/r/xml/tfRegressionTestArgumentsTest%d.xml'%i]+a)))
open('/verif/rocq/theories/RepoTests.v','w').write('\n'.join(o)+'\n')

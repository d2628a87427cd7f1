# Writes rocq/theories/RealTraces.v: the traces of /repo/src/traces and the Poseidon hashes that occur in them.
import json,os,sys
sys.path.insert(0,os.path.dirname(__file__))
from poseidon import H,P
D='/repo/src/traces/'
kinds={'empty_account_type_1':'AccountDoesNotExist','empty_account_type_2':'AccountDoesNotExist',
 'existing_account_balance_update':'BalanceChanged','empty_account_type_1_balance_update':'BalanceChanged','empty_account_type_2_balance_update':'BalanceChanged',
 'existing_account_nonce_update':'NonceChanged','empty_account_type_1_nonce_update':'NonceChanged','empty_account_type_2_nonce_update':'NonceChanged',
 'existing_account_code_size_update':'CodeSizeExists','existing_account_keccak_codehash_update':'CodeHashExists','existing_account_poseidon_codehash_update':'PoseidonCodeHashExists'}
S=['existing_storage_update','empty_storage_type_1_update_a','empty_storage_type_2_update_a','empty_storage_type_2_update_b','empty_storage_type_1_update_b','empty_storage_type_1_update_c','depth_1_type_1_storage','insert_into_singleton_storage_trie']
for s in S: kinds[s]='StorageChanged'
load=lambda n: json.load(open(D+n+'.json'))
out=[]
for n in sorted(kinds):
    d=load(n)
    out.append((n,kinds[n],d))
many=[(k,d) for k,d in load('createNameRegistratorPerTxsNotEnoughGas_d0_g0_v0')]
b=lambda x: bytes.fromhex(x[2:])
fr=lambda x: int.from_bytes(b(x),'little')
tab={}
def h(l,r,d):
    v=H(l,r,d); tab[(l%P,r%P,d)]=v; return v
def hx(x): return int(x[2:] or '0',16)
def halves(x): return x>>128, x&((1<<128)-1)
def collect(d):
    a=b(d['address'])
    key=h(int.from_bytes(a[:16],'big'),int.from_bytes(a[16:],'big')<<96,512)
    assert key==fr(d['accountKey'])
    known=set()
    paths=[p for p in d['accountPath']+d['statePath'] if p]
    for p in paths:
        known.add(fr(p['root']))
        for n in p.get('path',[])+([p['leaf']] if p.get('leaf') else []): known|={fr(n['value']),fr(n['sibling'])}
    for p in paths:
        if p.get('leaf'): h(fr(p['leaf']['sibling']),fr(p['leaf']['value']),4)
        for n in p.get('path',[]):
            v,s=fr(n['value']),fr(n['sibling'])
            for t in (6,7,8,9):
                for x in ((v,s),(s,v)):
                    if H(*x,t) in known: h(*x,t)
    roots=[fr(d['commonStateRoot'])]*2 if d.get('commonStateRoot') else [fr(p['root']) for p in d['statePath']]
    for ac,rt in zip(d['accountUpdate'],roots):
        if ac:
            h1=h(*halves(hx(ac.get('codeHash') or ac.get('keccakCodeHash','0x'))),512); h2=h(rt,h1,1280)
            h3=h(ac['nonce']+(ac.get('codeSize',0)<<64),hx(ac['balance'])%P,1280); h4=h(h3,h2,1280)
            h(key,h(h4,hx(ac.get('poseidonCodeHash','0x'))%P,1280),4)
    for s in d.get('stateUpdate') or []:
        if s:
            k=h(*halves(hx(s['key'])),512); v=h(*halves(hx(s['value'])),512); h(k,v,4)
for _,_,d in out: collect(d)
for _,d in many: collect(d)
h(0,0,512)
def opt(x,f): return 'None' if x is None else '(Some %s)'%f(x)
hb=lambda n: lambda x: '(%s %s)'%(n, '0x'+x[2:] if x[2:] else '0')
h32,h20=hb('h32'),hb('h20')
def node(n): return '(mkNode %s %s %d)'%(h32(n['value']),h32(n['sibling']),n.get('node_type',0))
def path(p): return '(mkPath %s %s [%s])'%(h32(p['root']),opt(p.get('leaf'),node),'; '.join(node(n) for n in p.get('path',[])))
def num(x): return '0x'+x[2:] if x[2:] else '0'
def acct(a): return '(mkAccountData %d %s %s %s %d)'%(a['nonce'],num(a['balance']),num(a.get('codeHash') or a.get('keccakCodeHash','0x')),num(a.get('poseidonCodeHash','0x')),a.get('codeSize',0))
def sd(s): return '(mkStateData %s %s)'%(h32(s['key']),h32(s['value']))
def pair(p,f): return '(%s, %s)'%(f(p[0]),f(p[1]))
def trace(d):
    return '(mkTrace %s %s\n    %s\n    %s\n    %s\n    %s %s %s)'%(h20(d['address']),h32(d['accountKey']),pair(d['accountPath'],path),pair(d['accountUpdate'],lambda a:opt(a,acct)),
      pair(d['statePath'],lambda p:opt(p,path)),opt(d.get('commonStateRoot'),h32),opt(d.get('stateKey'),h32),opt(d.get('stateUpdate'),lambda u:pair(u,lambda s:opt(s,sd))))
with open(sys.argv[1] if len(sys.argv)>1 else '/verif/rocq/theories/RealTraces.v','w') as f:
    w=f.write
    w('(* Data of /repo/src/traces: the traces that the tests of /repo convert and prove, as SMTTrace values, and the Poseidon hashes\n   that occur in them.  Generated by tools/real_traces.py (Poseidon: tools/poseidon.py); models no code. *)\n')
    w('From Coq Require Import ZArith List.\nFrom Verif Require Import Pocklington Fr Query Gadgets MptUpdate Bytes Util Serde.\nImport ListNotations.\nOpen Scope Z_scope.\n\n')
    w('Definition h32 (x : Z) : list Z := be_bytes 32 x.\nDefinition h20 (x : Z) : list Z := be_bytes 20 x.\n')
    w('(* left, right, domain, hash *)\nDefinition hashes : list (Z * Z * Z * Z) :=\n  [ '+'\n  ; '.join('(0x%x, 0x%x, %d, 0x%x)'%(k+(v,)) for k,v in tab.items())+' ].\n\n')
    for n,k,d in out: w('(* src/traces/%s.json *)\nDefinition real_%s : SMTTrace :=\n  %s.\n'%(n,n,trace(d)))
    w('(* src/traces/createNameRegistratorPerTxsNotEnoughGas_d0_g0_v0.json *)\nDefinition real_creates : list (MPTProofType * SMTTrace) :=\n  [ '+'\n  ; '.join('(%s, %s)'%(k,trace(d)) for k,d in many)+' ].\n')
    w('(* the traces with the proof type under which the tests prove them *)\nDefinition real_traces : list (MPTProofType * SMTTrace) :=\n  [ '+'\n  ; '.join('(%s, real_%s)'%(k,n) for n,k,d in out)+' ].\n')
print(len(tab),'hashes')

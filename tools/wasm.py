"""Writes rocq/theories/HardwareWasm.v: wasm32 SIMD instructions executed by a WebAssembly engine against the model.
usage: python3 tools/wasm.py CASES OUTFILE   (needs node)"""
import random, subprocess, sys, tempfile, json
N=int(sys.argv[1]); OUT=sys.argv[2]; TMP=tempfile.mkdtemp()
random.seed(20261117)
def leb(n):
    r=b''
    while True:
        b=n&127; n>>=7
        if n: r+=bytes([b|128])
        else: return r+bytes([b])
def sleb(n):
    r=b''
    while True:
        b=n&127; n>>=7
        if (n==0 and not b&64) or (n==-1 and b&64): return r+bytes([b])
        r+=bytes([b|128])
def S(op,*imm): return b'\xfd'+leb(op)+bytes(imm)
# memory: a at 0, b at 32, c at 64, result at 96
base=b'\x20\x00'                                    # local.get 0 = address of the case
def load(off): return base+b'\xfd\x00\x00'+leb(off)   # v128.load
def loadi(k,off): return base+{1:b'\x2d\x00',2:b'\x2f\x00',4:b'\x28\x00',8:b'\x29\x00'}[k]+leb(off)
def storev(body,off=96): return base+body+b'\xfd\x0b\x00'+leb(off)
def storei(body): return base+body+b'\x36\x00'+leb(96)   # i32.store
def i32(n): return b'\x41'+sleb(n)
def eqz(x): return x+b'\x45'
a,b,c=load(0),load(32),load(64)
ops=[]  # coq, code, input widths, output, generator
def op(coq,code,ins,out,gen='int'): ops.append((coq,code,ins,out,gen))
def bin(coq,o): op(coq,storev(a+b+S(o)),[16,16],16)
E={1:('U8','I8'),2:('U16','I16'),4:('U32','I32'),8:('U64','I64')}
ADD={1:0x6e,2:0x8e,4:0xae,8:0xce}; SUB={1:0x71,2:0x91,4:0xb1,8:0xd1}; EQ={1:0x23,2:0x2d,4:0x37,8:0xd6}
LT={'I8':0x25,'U8':0x26,'I16':0x2f,'U16':0x30,'I32':0x39,'U32':0x3a,'I64':0xd8}
for k in (1,2,4,8):
    for t in E[k]:
        bin(f'u_add W128 WASM128 {t}',ADD[k]); bin(f'u_sub W128 WASM128 {t}',SUB[k]); bin(f'u_eq W128 WASM128 {t}',EQ[k])
for t,o in LT.items(): bin(f'u_lt W128 WASM128 {t}',o)
for t,o in (('I8',0x6f),('U8',0x70),('I16',0x8f),('U16',0x90)): bin(f'u_add_sat W128 WASM128 {t}',o)
for t,o in (('I8',0x72),('U8',0x73),('I16',0x92),('U16',0x93)): bin(f'u_sub_sat W128 WASM128 {t}',o)
for t,o in (('I8',0x76),('U8',0x77),('I16',0x96),('U16',0x97),('I32',0xb6),('U32',0xb7)):
    bin(f'u_min W128 WASM128 {t}',o); bin(f'u_max W128 WASM128 {t}',o+2)
for f,o in (('and',0x4e),('andnot',0x4f),('or',0x50),('xor',0x51)): bin(f'v128_{f} WASM128',o)
op('v128_not WASM128',storev(a+S(0x4d)),[16],16)
op('v128_bsl WASM128',storev(b+c+S(0x51)+a+S(0x4e)+c+S(0x51)),[16,16,16],16)
bin('i16x8_mul_lo WASM128',0x95); bin('i32x4_mul_lo WASM128',0xb5); bin('u8x16_avgr WASM128',0x7b); bin('u8x16_swizzle WASM128',0x0e)
for k,l,r in ((2,0x8b,0x8d),(4,0xab,0xad)):
    for n in (0,1,4*k,8*k-1,8*k,8*k+3,255,-1):
        nn=f'({n})' if n<0 else str(n)
        op(f'shift W128 Left {k} {nn} WASM128',storev(a+i32(n)+S(l)),[16],16)
        op(f'shift W128 Right {k} {nn} WASM128',storev(a+i32(n)+S(r)),[16],16)
def shuffle(k,idx): return S(0x0d,*[i*k+j for i in idx for j in range(k)])
LO={1:[0,16,1,17,2,18,3,19,4,20,5,21,6,22,7,23],2:[0,8,1,9,2,10,3,11],4:[0,4,1,5],8:[0,2]}
HI={1:[8,24,9,25,10,26,11,27,12,28,13,29,14,30,15,31],2:[4,12,5,13,6,14,7,15],4:[2,6,3,7],8:[1,3]}
for k in (1,2,4,8):
    op(f'zip_lo {k} WASM128',storev(a+b+shuffle(k,LO[k])),[16,16],16)
    op(f'zip_hi {k} WASM128',storev(a+b+shuffle(k,HI[k])),[16,16],16)
op('unzip_even8 WASM128',storev(a+b+shuffle(1,range(0,32,2))),[16,16],16)
op('unzip_odd8 WASM128',storev(a+b+shuffle(1,range(1,32,2))),[16,16],16)
op('u8x16_bitmask WASM128',storei(a+S(0x64)),[16],'int')
op('v128_all_zero WASM128',storei(eqz(a+S(0x53))),[16],'bool')
op('u8x16_any_zero WASM128',storei(eqz(a+S(0x63))),[16],'bool')
op('u16x16_from_u8x16 WASM128',storev(a+S(0x89))+storev(a+S(0x8a),112),[16],32)
a2=load(16)
op('i16x16_set_lane7 WASM128',storev(a+loadi(2,32)+S(0x1a,7))+storev(a2,112),[32,2],32)
op('i32x8_set_lane7 WASM128',storev(a)+storev(a2+loadi(4,32)+S(0x1c,3),112),[32,4],32)
op('i32x4_get_lane3 WASM128',storei(a+S(0x1b,3)),[16],'int')
op('i16x8_get_lane7 WASM128',storei(a+S(0x19,7)),[16],'int')
for k,o in ((1,0x0f),(2,0x10),(4,0x11),(8,0x12)): op(f'u_splat W128 WASM128 {E[k][0]}',storev(loadi(k,0)+S(o)),[k],16)
op('f_min (fun x _ => x) W128 WASM128 F32',storev(a+b+S(0xe8)),[16,16],16,'f32')
op('f_max (fun x _ => x) W128 WASM128 F32',storev(a+b+S(0xe9)),[16,16],16,'f32')

EDGE=[0,1,2,15,16,17,31,32,63,64,126,127,128,129,143,144,191,192,240,253,254,255]
F32=[0,0x80000000,1,0x80000001,0x7fffff,0x800000,0x3f800000,0xbf800000,0x7f7fffff,0xff7fffff,0x7f800000,0xff800000,0x40490fdb]  # no NaN: the payload is not specified
def vec(L,gen,j):
    if gen=='f32': return b''.join(random.choice(F32).to_bytes(4,'little') for _ in range(L//4))
    m=j%5
    if m==0: return bytes(random.choice(EDGE) for _ in range(L))
    if m==1: return bytes(random.randrange(256) for _ in range(L))
    if m==2: return bytes(random.choice([0,255,128,127,1]) for _ in range(L))
    if m==3: return bytes(random.choice([0,128,255]) if (x%2) else random.choice([0,1,255]) for x in range(L))
    return bytes([random.choice(EDGE)]*L)
cases=[]
for o in ops:
    cs=[]
    for j in range(N):
        vs=[vec(L,o[4],random.randrange(5) if j>=5 else j) for L in o[2]]
        if len(vs)>=2 and j%4==3:
            v=bytearray(vs[1]); n=min(len(vs[0]),len(v))
            for q in range(0,n,8):
                if random.random()<.5: v[q:q+8]=vs[0][q:q+8]
            vs[1]=bytes(v)
        if o[3]=='bool' and j%3==0: vs=[bytes(o[2][0])] if j else [bytes(o[2][0]-1)+b'\x01']
        if o[3]=='bool' and j==1: vs=[bytes(random.randrange(1,256) for _ in range(16))]
        cs.append(vs)
    cases.append(cs)
def vecn(xs): return leb(len(xs))+b''.join(xs)
def sec(i,x): return bytes([i])+leb(len(x))+x
def wstr(s): return leb(len(s))+s.encode()
n=len(ops)
mod=b'\0asm\1\0\0\0'+sec(1,vecn([b'\x60\x01\x7f\x00']))+sec(3,vecn([b'\x00']*n))+sec(5,vecn([b'\x00\x01']))
mod+=sec(7,vecn([wstr('mem')+b'\x02\x00']+[wstr(f't{k}')+b'\x00'+leb(k) for k in range(n)]))
mod+=sec(10,vecn([leb(len(x))+x for x in (b'\x00'+o[1]+b'\x0b' for o in ops)]))
open(TMP+'/t.wasm','wb').write(mod)
json.dump([[[list(v) for v in vs] for vs in cs] for cs in cases],open(TMP+'/in.json','w'))
open(TMP+'/t.js','w').write('''
const fs=require('fs'),D=process.argv[2];
WebAssembly.instantiate(fs.readFileSync(D+'/t.wasm')).then(({instance})=>{
  const m=new Uint8Array(instance.exports.mem.buffer);
  const ins=JSON.parse(fs.readFileSync(D+'/in.json'));
  console.log(JSON.stringify(ins.map((cs,k)=>cs.map(vs=>{
    m.fill(0xa5,0,192); vs.forEach((v,i)=>m.set(v,64+32*i)); instance.exports['t'+k](64); return Array.from(m.slice(160,192));}))));
});''')
res=json.loads(subprocess.check_output(['node',TMP+'/t.js',TMP]))
def z(v): return '0x'+bytes(v)[::-1].hex()
def l(v,L): return z(v) if L<16 else f'({"v16" if L==16 else "v32"} {z(v)})'
f=open(OUT,'w')
f.write("""(** Recorded results of wasm32 SIMD instructions (generated by tools/wasm.py; not part of any proof).

    Like Hardware.v, for the instructions behind [core::arch::wasm32]: V8 executed the instructions that the Rust source uses. *)
From Coq Require Import ZArith List Bool.
From Verif Require Import Bytes Isa Ints Simd VsimdSpec Vsimd FloatSpec Float Uuid.
Import ListNotations.
Open Scope Z_scope.
Local Definition v16 := le_bytes 16.
Local Definition v32 := le_bytes 32.
Local Ltac run := vm_compute; reflexivity.

""")
for k,(o,cs) in enumerate(zip(ops,cases)):
    lhs=[]; rhs=[]
    for vs,r in zip(cs,res[k]):
        v=int.from_bytes(bytes(r[:4]),'little')
        rhs.append('Some '+(l(r[:o[3]],o[3]) if o[3] in (16,32) else str(v) if o[3]=='int' else ('true' if v else 'false')))
        lhs.append(f'f {" ".join(l(v,L) for v,L in zip(vs,o[2]))}')
    f.write(f'Example wasm{k:03d} : let f := {o[0]} in\n  [{"; ".join(lhs)}] =\n  [{"; ".join(rhs)}].\nProof. run. Qed.\n')
print(len(ops),'operations,',N,'cases each')

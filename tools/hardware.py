"""Writes rocq/theories/Hardware.v: x86 intrinsics executed on this machine against the model.
usage: python3 tools/hardware.py CASES OUTFILE   (needs gcc and a CPU with AVX2)"""
import os, random, subprocess, sys, tempfile
N=int(sys.argv[1]); OUT=sys.argv[2]; TMP=tempfile.mkdtemp()
random.seed(20261116)
ops=[]  # (name, coq fun expression, C expression, inputs spec, result kind)
# inputs: list of widths (16/32); kinds: 'v16','v32','bool','int'
def op(coq,c,ins,out,gen='int'): ops.append((coq,c,ins,out,gen))
E={1:('U8','I8'),2:('U16','I16'),4:('U32','I32'),8:('U64','I64')}
for k in (1,2,4,8):
    b=8*k
    for s,i,W,L in (('SSE2','_mm','W128',16),('AVX2','_mm256','W256',32)):
        for u in (0,1):
            t=E[k][u]
            op(f'u_add {W} {s} {t}',f'{i}_add_epi{b}(a,b)',[L,L],L)
            op(f'u_sub {W} {s} {t}',f'{i}_sub_epi{b}(a,b)',[L,L],L)
            if k<8 or s=='AVX2': op(f'u_eq {W} {s} {t}',f'{i}_cmpeq_epi{b}(a,b)',[L,L],L)
        if s=='AVX2':
            op(f'u_lt {W} {s} {E[k][1]}',f'_mm256_cmpgt_epi{b}(b,a)',[L,L],L)
            if k<8:
                op(f'u_lt {W} {s} {E[k][0]}',f'_mm256_xor_si256(_mm256_cmpeq_epi{b}(a,_mm256_max_epu{b}(a,b)),_mm256_cmpeq_epi{b}(a,a))',[L,L],L)
        elif k<8:
            op(f'u_lt {W} {s} {E[k][1]}',f'_mm_cmplt_epi{b}(a,b)',[L,L],L)
            if k==1: op(f'u_lt {W} {s} U8','_mm_xor_si128(_mm_cmpeq_epi8(a,_mm_max_epu8(a,b)),_mm_cmpeq_epi8(a,a))',[L,L],L)
            if k==2: op(f'u_lt {W} {s} U16','_mm_cmplt_epi16(_mm_xor_si128(a,_mm_set1_epi16(-32768)),_mm_xor_si128(b,_mm_set1_epi16(-32768)))',[L,L],L)
            if k==4: op(f'u_lt {W} {s} U32','_mm_cmplt_epi32(_mm_xor_si128(a,_mm_set1_epi32(0x80000000)),_mm_xor_si128(b,_mm_set1_epi32(0x80000000)))',[L,L],L)
        if k<=2:
            for f,g in (('u_add_sat','adds'),('u_sub_sat','subs')):
                op(f'{f} {W} {s} {E[k][0]}',f'{i}_{g}_epu{b}(a,b)',[L,L],L)
                op(f'{f} {W} {s} {E[k][1]}',f'{i}_{g}_epi{b}(a,b)',[L,L],L)
        if k<=4:
            s41 = s if s=='AVX2' else 'SSE41'
            for f in ('max','min'):
                for u in (0,1):
                    op(f'u_{f} {W} {s41} {E[k][u]}',f'{i}_{f}_ep{"ui"[u]}{b}(a,b)',[L,L],L)
        if k>=2 :
            ks=[0,1,b//2,b-1,b,b+1,255]
            for n in ks:
                if k<8 or True:
                    op(f'shift {W} Left {k} {n} {s}',f'{i}_slli_epi{b}(a,{n})',[L],L)
                    op(f'shift {W} Right {k} {n} {s}',f'{i}_srli_epi{b}(a,{n})',[L],L)
        z='' if s=='SSE2' else '_x2'
        op(f'zip_lo{z} {k} {s}',f'{i}_unpacklo_epi{b}(a,b)',[L,L],L)
        op(f'zip_hi{z} {k} {s}',f'{i}_unpackhi_epi{b}(a,b)',[L,L],L)
for s,i,L,x,si in (('SSE2','_mm',16,'v128','si128'),('AVX2','_mm256',32,'v256','si256')):
    for f in ('and','or','xor'): op(f'{x}_{f} {s}',f'{i}_{f}_{si}(a,b)',[L,L],L)
    op(f'{x}_andnot {s}',f'{i}_andnot_{si}(b,a)',[L,L],L)
    op(f'{x}_not {s}',f'{i}_xor_{si}(a,{i}_cmpeq_epi8(a,a))',[L],L)
    op(f'{x}_bsl {s}',f'{i}_xor_{si}({i}_and_{si}({i}_xor_{si}(b,c),a),c)',[L,L,L],L)
    if s=='SSE2':
        op('i16x8_mul_lo SSE2','_mm_mullo_epi16(a,b)',[L,L],L)
        op('i32x4_mul_lo SSE41','_mm_mullo_epi32(a,b)',[L,L],L)
        op('u16x8_mul_hi SSE2','_mm_mulhi_epu16(a,b)',[L,L],L)
        op('i16x8_mul_hi SSE2','_mm_mulhi_epi16(a,b)',[L,L],L)
        op('i16x8_maddubs SSSE3','_mm_maddubs_epi16(a,b)',[L,L],L)
        op('i16x8_madd SSE2','_mm_madd_epi16(a,b)',[L,L],L)
        op('u8x16_avgr SSE2','_mm_avg_epu8(a,b)',[L,L],L)
        op('i16x8_packus SSE2','_mm_packus_epi16(a,b)',[L,L],L)
        op('u8x16_swizzle SSSE3','_mm_shuffle_epi8(a,b)',[L,L],L)
        op('u8x16_blendv SSE41','_mm_blendv_epi8(a,b,c)',[L,L,L],L)
        for m in (0x33,0x55,0xaa,0x81): op(f'u16x8_blend SSE41 {m}',f'_mm_blend_epi16(a,b,{m})',[L,L],L)
        op('u8x16_bitmask SSE2','_mm_movemask_epi8(a)',[L],'int')
        op('v128_all_zero SSE41','_mm_testz_si128(a,a)',[L],'bool')
        op('u8x16_any_zero SSE2','_mm_movemask_epi8(_mm_cmpeq_epi8(a,_mm_setzero_si128()))!=0',[L],'bool')
    else:
        op('i16x16_mul_lo AVX2','_mm256_mullo_epi16(a,b)',[L,L],L)
        op('i32x8_mul_lo AVX2','_mm256_mullo_epi32(a,b)',[L,L],L)
        op('u16x16_mul_hi AVX2','_mm256_mulhi_epu16(a,b)',[L,L],L)
        op('i16x16_mul_hi AVX2','_mm256_mulhi_epi16(a,b)',[L,L],L)
        op('i16x16_maddubs AVX2','_mm256_maddubs_epi16(a,b)',[L,L],L)
        op('i16x16_madd AVX2','_mm256_madd_epi16(a,b)',[L,L],L)
        op('u8x32_avgr AVX2','_mm256_avg_epu8(a,b)',[L,L],L)
        op('u8x16x2_swizzle AVX2','_mm256_shuffle_epi8(a,b)',[L,L],L)
        op('u8x32_blendv AVX2','_mm256_blendv_epi8(a,b,c)',[L,L,L],L)
        for m in (0x55,0xaa,0x81): op(f'u32x8_blend AVX2 {m}',f'_mm256_blend_epi32(a,b,{m})',[L,L],L)
        op('u8x32_bitmask AVX2','(unsigned)_mm256_movemask_epi8(a)',[L],'int')
        op('v256_all_zero AVX2','_mm256_testz_si256(a,a)',[L],'bool')
        op('u8x32_any_zero AVX2','(unsigned)_mm256_movemask_epi8(_mm256_cmpeq_epi8(a,_mm256_setzero_si256()))!=0',[L],'bool')
        op('u16x16_from_u8x16 AVX2','_mm256_cvtepu8_epi16(a)',[16],32)
        for m in (216,0,27,228,78): op(f'u64x4_permute {m} AVX2',f'_mm256_permute4x64_epi64(a,{m})',[L],L)
        op('u64x4_permute_0213 AVX2','_mm256_permute4x64_epi64(a,0xd8)',[L],L)
        op('v128x2_zip_lo AVX2','_mm256_permute2x128_si256(a,b,0x20)',[L,L],L)
        op('v128x2_zip_hi AVX2','_mm256_permute2x128_si256(a,b,0x31)',[L,L],L)
for W,s,i,L,c in (('W128','SSE2','_mm',16,''),('W256','AVX2','_mm256',32,'256')):
    w='128' if L==16 else '256'
    for f in ('max','min'):
        op(f'f_{f} (fun x _ => x) {W} {s} F32',f'{i}_castps_si{w}({i}_{f}_ps({i}_castsi{w}_ps(a),{i}_castsi{w}_ps(b)))',[L,L],L,'f32')
        op(f'f_{f} (fun x _ => x) {W} {s} F64',f'{i}_castpd_si{w}({i}_{f}_pd({i}_castsi{w}_pd(a),{i}_castsi{w}_pd(b)))',[L,L],L,'f64')
op('i16x16_set_lane7 AVX2','_mm256_insert_epi16(a,(short)b,7)',[32,2],32)
op('i32x8_set_lane7 AVX2','_mm256_insert_epi32(a,(int)b,7)',[32,4],32)
op('i16x16_set_lane7 SSE2','SET16(a,b)',[32,2],32)
op('i32x8_set_lane7 SSE41','SET32(a,b)',[32,4],32)
op('i32x4_get_lane3 SSE41','(unsigned)_mm_extract_epi32(a,3)',[16],'int')
op('i16x8_get_lane7 SSE2','(unsigned short)_mm_extract_epi16(a,7)',[16],'int')
for k,t in ((1,'8'),(2,'16'),(4,'32'),(8,'64x')):
    op(f'u_splat W128 SSE2 {E[k][0]}',f'_mm_set1_epi{t}(a)',[k],16)
op(f'u_splat W256 AVX2 U8','_mm256_set1_epi8(a)',[1],32)
EDGE=[0,1,2,15,16,17,31,32,63,64,126,127,128,129,143,144,191,192,240,253,254,255]
F32=[0,0x80000000,1,0x80000001,0x7fffff,0x800000,0x3f800000,0xbf800000,0x7f7fffff,0xff7fffff,0x7f800000,0xff800000,0x7fc00000,0xffc00000,0x7f800001,0xff800001,0x7fffffff,0x40490fdb]
F64=[0,1<<63,1,(1<<63)|1,(1<<52)-1,1<<52,0x3ff<<52,0xbff<<52,(0x7ff<<52)-1,0x7ff<<52,0xfff<<52,(0x7ff<<52)+1,0x7ff8<<48,0xfff8<<48,(0xfff<<52)+1,0x400921fb54442d18]
def vec(L,gen,j):
    if gen=='f32': return b''.join(random.choice(F32).to_bytes(4,'little') for _ in range(L//4))
    if gen=='f64': return b''.join(random.choice(F64).to_bytes(8,'little') for _ in range(L//8))
    m=j%5
    if m==0: return bytes(random.choice(EDGE) for _ in range(L))
    if m==1: return bytes(random.randrange(256) for _ in range(L))
    if m==2: return bytes(random.choice([0,255,128,127,1]) for _ in range(L))
    if m==3: return bytes(random.choice([0,128,255]) if (x%2) else random.choice([0,1,255]) for x in range(L))
    return bytes([random.choice(EDGE)]*L)
cases=[]
for o in ops:
    cs=[]
    for j in range(N):
        vs=[vec(L,o[4],random.randrange(5) if j>=5 else j) for L in o[2]]
        if len(vs)>=2 and j%4==3:  # share some lanes so equality happens
            v=bytearray(vs[1]); n=min(len(vs[0]),len(v))
            for q in range(0,n,8):
                if random.random()<.5: v[q:q+8]=vs[0][q:q+8]
            vs[1]=bytes(v)
        if o[3]=='bool' and j%3==0: vs=[bytes(o[2][0])] if j else [bytes(o[2][0]-1)+b'\x01']
        cs.append(vs)
    cases.append(cs)
c=['#include <immintrin.h>',
'#define SET16(a,b) _mm256_set_m128i(_mm256_extracti128_si256(a,1),_mm_insert_epi16(_mm256_castsi256_si128(a),(short)b,7))',
'#define SET32(a,b) _mm256_set_m128i(_mm_insert_epi32(_mm256_extracti128_si256(a,1),(int)b,3),_mm256_castsi256_si128(a))','#include <stdio.h>','#include <string.h>',
'static void pv(const void*p,int n){const unsigned char*q=p;for(int i=0;i<n;i++)printf("%d ",q[i]);printf("\\n");}']
for k,(o,cs) in enumerate(zip(ops,cases)):
    c.append(f'__attribute__((noinline)) void t{k}(void){{')
    for vs in cs:
        c.append('{')
        for nm,v,L in zip('abc',vs,o[2]):
            ty={1:'unsigned char',2:'unsigned short',4:'unsigned',8:'unsigned long long',16:'__m128i',32:'__m256i'}[L]
            c.append(f'static volatile unsigned char x{nm}[]={{{",".join(map(str,v))}}};unsigned char y{nm}[{L}];for(int i=0;i<{L};i++)y{nm}[i]=x{nm}[i];{ty} {nm};memcpy(&{nm},y{nm},{L});')
        if o[3] in (16,32):
            ty='__m128i' if o[3]==16 else '__m256i'
            c.append(f'{ty} r={o[1]};pv(&r,{o[3]});')
        else: c.append(f'printf("%lld\\n",(long long)({o[1]}));')
        c.append('}')
    c.append('}')
c.append('int main(void){'+''.join(f't{k}();' for k in range(len(ops)))+'return 0;}')
open(TMP+'/t.c','w').write('\n'.join(c))
subprocess.check_call(['gcc','-O1','-mavx2','-o',TMP+'/t',TMP+'/t.c'])
out=subprocess.check_output([TMP+'/t']).decode().splitlines()
assert len(out)==N*len(ops)

def z(v): return '0x'+bytes(int(x) for x in v)[::-1].hex()
def l(v,L): return z(v) if L<16 else f'({"v16" if L==16 else "v32"} {z(v)})'
f=open(OUT,'w')
f.write("""(** Recorded results of x86 instructions (generated by tools/hardware.py; not part of any proof).

    Each line runs the model of one vsimd operation on vectors on which a CPU with AVX2 executed the intrinsics that the
    Rust source uses for that operation and instruction set, and compares with what the CPU returned.
    This tests the meaning given to the instructions, which the theorems trust (DESIGN.md, section 1).
    A vector is written as the number whose little-endian bytes it holds. *)
From Coq Require Import ZArith List Bool.
From Verif Require Import Bytes Isa Ints Simd VsimdSpec Vsimd FloatSpec Float Uuid.
Import ListNotations.
Open Scope Z_scope.
Local Definition v16 := le_bytes 16.
Local Definition v32 := le_bytes 32.
Local Ltac run := vm_compute; reflexivity.

""")
it=iter(out)
for k,(o,cs) in enumerate(zip(ops,cases)):
    lhs=[]; rhs=[]
    for vs in cs:
        r=next(it).split()
        rhs.append('Some '+(l(r,o[3]) if o[3] in (16,32) else r[0] if o[3]=='int' else ('true' if r[0]!='0' else 'false')))
        lhs.append(f'f {" ".join(l(v,L) for v,L in zip(vs,o[2]))}')
    f.write(f'Example hw{k:03d} : let f := {o[0]} in\n  [{"; ".join(lhs)}] =\n  [{"; ".join(rhs)}].\nProof. run. Qed.\n')
print(len(ops),'operations,',N,'cases each')

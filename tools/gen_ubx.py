#!/usr/bin/env python3
# Transcribes libubx's fixed-layout messages into UbxMsg_model.v: records and value ranges from the struct definitions,
# encoders from encode.c (memcpy lines), decoders from decode.c (BYTESTREAM_DECODE_BYTES lines).  Usage: gen_ubx.py > UbxMsg_model.v
import re
R='/repo/c/libubx/'
H=open(R+'include/ubx/ubx_messages.h').read().split('\n'); D=open(R+'src/decode.c').read().split('\n'); E=open(R+'src/encode.c').read().split('\n')
TY={'uint8_t':('u',1),'uint16_t':('u',2),'uint32_t':('u',4),'int8_t':('s',1),'int16_t':('s',2),'int32_t':('s',4),'double':('u',8),'float':('u',4)}
CONST={'UBX_CLASS_HNR':0x28,'UBX_MSG_HNR_PVT':0,'UBX_CLASS_NAV':1,'UBX_MSG_NAV_ATT':5,'UBX_MSG_NAV_CLOCK':0x22,'UBX_MSG_NAV_PVT':7,'UBX_MSG_NAV_VELECEF':0x11,'UBX_MSG_NAV_SAT':0x35,'UBX_MSG_NAV_STATUS':3,'UBX_CLASS_ESF':0x10,'UBX_MSG_ESF_INS':0x15,'UBX_MSG_ESF_MEAS':2,'UBX_MSG_ESF_RAW':3}
def struct(name):
    j=next(i for i,l in enumerate(H) if l.strip()=='} %s;'%name); i=j
    while not H[i].startswith('typedef struct'): i-=1
    fs=[]
    for l in H[i+1:j]:
        m=re.match(r'\s*(\w+) (\w+)(?:\[(\w+)\])?;',l)
        fs.append((m[1],m[2],m[3]))
    return fs,i+1,j+1
def body(src,fn):
    i=next(k for k,l in enumerate(src) if re.match(r'(ubx_rc|uint16_t) %s\('%fn,l)); j=i
    while src[j]!='}': j+=1
    return src[i:j+1],i+1,j+1
print('''(** GENERATED by tools/gen_ubx.py from c/libubx/include/ubx/ubx_messages.h, c/libubx/src/encode.c and c/libubx/src/decode.c
    (the cited lines of each); do not edit.  double and float fields are represented by their 64/32-bit patterns, which is what
    memcpy and swiftnav_bytestream_get_bytes copy. *)
From Verif Require Import Base Bytestream_model.
''')
MS=[('hnr_pvt','ubx_hnr_pvt','hnr_pvt','hnr_pvt',None),('nav_att','ubx_nav_att','nav_att','nav_att',None),('nav_clock','ubx_nav_clock','nav_clock','nav_clock',None),
 ('nav_pvt','ubx_nav_pvt','nav_pvt','nav_pvt',None),('nav_velecef','ubx_nav_velecef','nav_velecef','nav_velecef',None),('nav_status','ubx_nav_status','nav_status','nav_status',None),
 ('mga_gps_eph','ubx_mga_gps_eph','mga_gps_eph','mga_gps_eph',None),('esf_ins','ubx_esf_ins','esf_ins','esf_ins',None)]
for nm,st,en,de,_ in MS:
    fs,a,b=struct(st); T={f:(t,n) for t,f,n in fs}
    pre=nm+'_'
    print('(** %s: ubx_messages.h:%d-%d *)'%(st,a,b))
    print('Record %s := mk_%s { %s }.'%(nm,nm,'; '.join('%s%s : %s'%(pre,f,'list Z' if n else 'Z') for t,f,n in fs)))
    eb,ea,ez=body(E,'ubx_encode_'+en); items=[]; loop=None
    for l in eb:
        m=re.search(r'for \(int i = 0; i < (\d+); i\+\+\)',l)
        if m: loop=int(m[1])
        m=re.search(r'memcpy\(&buff\[index\], &\w+->(\w+)(\[i\])?, (\d+)\)',l)
        if m:
            if m[2]: items.append('flat_map (le %s) (take %d (%s%s m))'%(m[3],loop,pre,m[1]))
            else: items.append('le %s (%s%s m)'%(m[3],pre,m[1]))
    print('(** ubx_encode_%s: encode.c:%d-%d *)'%(en,ea,ez))
    print('Definition encode_%s (m : %s) : list Z :=\n  %s.'%(nm,nm,' ++\n  '.join(items)))
    db,da,dz=body(D,'ubx_decode_%s_bytestream'%de); out=[]; loop=None; got=[]
    txt='\n'.join(db)
    txt=re.sub(r'BYTESTREAM_DECODE_BYTES\(\s*','BYTESTREAM_DECODE_BYTES(',txt)
    for l in txt.split('\n'):
        m=re.search(r'for \(int i = 0; i < (\d+); i\+\+\)',l)
        if m: loop=int(m[1])
        m=re.search(r'BYTESTREAM_DECODE_BYTES\(buff, \w+->(\w+)(\[i\])?, (\d+)\)',l)
        if m:
            k,w=TY[T[m[1]][0]]; assert w==int(m[3]),(nm,l)
            if m[2]: out.append('%s <~ get_n %d (get%s %s) ;;'%(m[1],loop,k,m[3]))
            else: out.append('%s <~ get%s %s ;;'%(m[1],k,m[3]))
            got.append(m[1])
        m=re.search(r'if \(\w+->(\w+) != (\w+)\)',l)
        if m: out.append('check (%s =? %s) ;;;'%(m[1],CONST.get(m[2]) if m[2] in CONST else m[2])); 
    assert sorted(got)==sorted(f for _,f,_ in fs)
    print('(** ubx_decode_%s_bytestream: decode.c:%d-%d *)'%(de,da,dz))
    print('Definition decode_%s : bdec %s :=\n  %s\n  bret (mk_%s %s).'%(nm,nm,'\n  '.join(out),nm,' '.join(f for _,f,_ in fs)))
    cls=[o for o in out if o.startswith('check')]
    ids=[re.search(r'=\? (\w+)',o)[1] for o in cls]
    rng=[]
    for t,f,n in fs:
        k,w=TY[t]; P='ufits %d'%w if k=='u' else 'sfits %d'%w
        if n: rng.append('Forall (%s) (%s%s m) /\\ len (%s%s m) = %s'%(P,pre,f,pre,f,n))
        else: rng.append('%s (%s%s m)'%(P,pre,f))
    print('(** every field is representable in its C type and the message is of its type *)')
    print('Definition %s_fits (m : %s) : Prop :=\n  %sclass_id m = %s /\\ %smsg_id m = %s /\\\n  %s.\n'%(nm,nm,pre,ids[0],pre,ids[1],' /\\\n  '.join(rng)))

from rsconst import *
p='sha2/src/consts.rs'
out="(** Constants of the sha2 crate (generated by tools/gen_sha2.py from the source text). *)\nFrom Verif Require Import Base.Words.\n\n"
for n,w in [('H256_224',8),('H256_256',8),('H512_224',16),('H512_256',16),('H512_384',16),('H512_512',16),('K32',8),('K64',16)]:
    out+=table(p,n,n,w,8 if w==8 else 4)+"\n"
open('/verif/rocq/theories/Model/Sha2Consts.v','w').write(out)
